(** * Packets built with the API and received (C103). *)
From Coq Require Import Lia ZifyBool ZifyNat ZifyN.
From Verif Require Import Base Buffer Fqdn Header Types RDataBasic RData Packet BaseFacts FqdnFacts HeaderSpec HeaderFacts CodeSpec CompressSpec RecordSpec ApiSpec PacketFacts PacketProps SendSpec SendFacts PropName PropHeader PropRecord PropPacket PropMisc.

(** Plain form: after any calls whatever, with entries the wire format can carry and at most 65535 in each
    section at the end, the message is parsed to exactly the sections and flags that the calls have set. *)
Theorem C103_plain_partial : forall (c : cfg) (o : origin) (ks : list call) (p : packet),
  origin_with (question_ok c) o -> Forall (call_with (question_ok c) (rr_plain_ok c)) ks ->
  history c ks (create o) = Ok p -> fits_counts (built_sections o ks) ->
  exists bs p', packet_to_bytes c p = Ok bs /\ packet_try_from c bs = Ok p' /\ received p' o ks.
Proof. exact sent_plain. Qed.
(** Compressed form: after calls that keep the counts.  [h]: the hash function of the dictionary of names. *)
Theorem C103_compressed_partial : forall (c : cfg) (h : hasher) (o : origin) (ks : list call),
  starts_counted o -> Forall keeps_counts ks -> always_fits ks (first_sections o) ->
  origin_with (question_ok c) o -> Forall (call_with (question_ok c) (rr_ok c)) ks ->
  exists p, history c ks (create o) = Ok p /\ received p o ks /\
    forall bs, hash_separates h (packet_names p) -> packet_to_bytes_compressed c h p = Ok bs -> N.of_nat (length bs) <= 16384 -> packet_try_from c bs = Ok p.
Proof. exact sent_compressed. Qed.

(** The example of the README, for any questions: names given as texts arrive as the same texts. *)
Definition ask (x : list bytes * qtype * qclass) : call := let '(ls, t, k) := x in AddQuestion (question_new (fqdn_new (text_of ls)) t k).
Definition asked (x : list bytes * qtype * qclass) : bytes * qtype * qclass := let '(ls, t, k) := x in (text_of ls, t, k).
Definition seen (q : question) : bytes * qtype * qclass := (fqdn_display (q_name q), q_type q, q_class q).
Lemma text_dotted ls : text_of ls = dotted ls.
Proof. induction ls as [|l [|r ls] IH]; [reflexivity|reflexivity|]. change (l ++ [46] ++ text_of (r :: ls) = l ++ [46] ++ dotted (r :: ls)). rewrite IH. reflexivity. Qed.
Lemma text_name ls : Forall (fun l : bytes => (1 <= length l <= 191)%nat /\ ~ In 46 l) ls -> fqdn_new (text_of ls) = ls /\ fqdn_display ls = text_of ls.
Proof.
  intros F. rewrite text_dotted. assert (D : Forall dotless ls). { eapply Forall_impl; [|exact F]. intros l [L N]. split; [|exact N]. intros ->. cbn in L. lia. }
  destruct (C74_ways_partial ls D) as (A & _ & _ & B). rewrite A in B. auto.
Qed.
Lemma asked_sections l st : fold_left (fun st k => meaning k st) (map ask l) st = (fst st ++ flat_map (fun k => match k with AddQuestion q => [q] | _ => [] end) (map ask l), snd st).
Proof.
  revert st. induction l as [|[[ls t] k] l IH]; intros [qs f]; cbn [map fold_left flat_map]; [rewrite app_nil_r; reflexivity|]. rewrite IH. cbn [meaning ask fst snd]. rewrite <- app_assoc. reflexivity.
Qed.
Theorem C103_readme : forall (c : cfg) (l : list (list bytes * qtype * qclass)),
  Forall (fun '(ls, t, k) => Forall (fun l : bytes => (1 <= length l <= 191)%nat /\ ~ In 46 l) ls /\ qdecodable c t) l -> N.of_nat (length l) <= 65535 ->
  exists p bs p', history c (map ask l) (create Default) = Ok p /\ packet_to_bytes c p = Ok bs /\ packet_try_from c bs = Ok p' /\
    map seen (p_questions p') = map asked l /\ p_answers p' = [] /\ p_authorities p' = [] /\ p_additionals p' = [].
Proof.
  intros c l F L. assert (W : Forall (call_with (question_ok c) (rr_plain_ok c)) (map ask l)).
  { apply Forall_map. eapply Forall_impl; [|exact F]. intros [[ls t] k] [A B]. cbn [ask call_with]. unfold question_ok, question_new. cbn [q_name q_type q_unicast]. rewrite (proj1 (text_name ls A)).
    split; [|split; [exact B|reflexivity]]. eapply Forall_impl; [|exact A]. intros x [X _]. exact X. }
  assert (N : length (flat_map (fun k => match k with AddQuestion q => [q] | _ => [] end) (map ask l)) = length l) by (clear; induction l as [|[[ls t] k] l IH]; cbn; auto).
  assert (K : Forall keeps_counts (map ask l)) by (apply Forall_map, Forall_forall; intros [[ls t] k] _; exact I).
  destruct (history_total c (map ask l) (create Default) K (create_counts Default I)) as (p & E & _).
  { clear - L. cut (forall st, (forall s, snd st s = []) -> N.of_nat (length (fst st) + length l) <= 65535 -> always_fits (map ask l) st); [intros H; apply H; [intros []; reflexivity|exact L]|]. clear L.
    induction l as [|[[ls t] k] l IH]; intros [qs f] Z L; cbn [map always_fits fst snd] in *; (split; [split; [cbn [fst]; lia|intros s; cbn [snd]; rewrite Z; cbn; lia]|]); [exact I|]. cbn [ask meaning]. apply IH; [exact Z|]. cbn [fst]. rewrite app_length. cbn [length] in *. lia. }
  destruct (sent_plain c Default (map ask l) p I W E) as (bs & p' & E1 & E2 & [[S1 S2] V]).
  { unfold built_sections. rewrite asked_sections. split; [cbn [fst first_sections app]; rewrite N; exact L|]. intros s. discriminate. }
  unfold built_sections in S1, S2. rewrite asked_sections in S1, S2. cbn [fst snd first_sections app] in S1, S2. exists p, bs, p'. split; [exact E|]. split; [exact E1|]. split; [exact E2|].
  split; [|split; [exact (S2 Answers)|split; [exact (S2 Authorities)|exact (S2 Additionals)]]].
  change (p_questions p') with (fst (sections_of p')). rewrite S1. clear - F. induction l as [|[[ls t] k] l IH]; [reflexivity|]. pose proof (Forall_inv F) as [A B]. apply Forall_inv_tail in F. rename F into F'. cbn [map ask flat_map app]. rewrite (IH F'). f_equal.
  unfold seen, asked, question_new. cbn [q_name q_type q_class]. destruct (text_name ls A) as [-> ->]. reflexivity.
Qed.

(** Packets made by [with_questions]: in compressed form none of the questions arrives. *)
Lemma questions_grow c h qs : forall bin m, exists x, fst (questions_compressed c h qs bin m) = bin ++ x.
Proof.
  induction qs as [|q qs IH]; intros bin m; cbn [questions_compressed]; [exists []; symmetry; apply app_nil_r|].
  destruct (question_to_bytes_compressed c h q m (length bin)) as [b m1]. destruct (IH (bin ++ b) m1) as (x & E). exists (b ++ x). rewrite E. symmetry. apply app_assoc.
Qed.
Theorem C103_with_questions_refuted : forall (c : cfg) (h : hasher) (i : N) (rd : bool) (qs : list question), i < 65536 ->
  exists bs p', packet_to_bytes_compressed c h (create (WithQuestions i rd qs)) = Ok bs /\ packet_try_from c bs = Ok p' /\ p_questions p' = [].
Proof.
  intros c h i rd qs L. unfold packet_to_bytes_compressed. cbn [create packet_with_questions p_questions p_header p_answers p_authorities p_additionals].
  destruct (questions_grow c h qs (header_to_bytes (header_new_query i rd)) []) as (x & X). destruct (questions_compressed c h qs (header_to_bytes (header_new_query i rd)) []) as [w m]. cbn [fst] in X. subst w.
  cbn [records_compressed rbind fst snd]. eexists. exists (mkPacket (header_new_query i rd) [] [] [] []). split; [reflexivity|]. split; [|reflexivity].
  assert (T : header_typed (header_new_query i rd)). { destruct rd; repeat split; try exact L; reflexivity. }
  destruct (C16_header_roundtrip _ [] x T) as (R & _). unfold packet_try_from, packet_try_from_buf, buf_from. unfold bind at 1. cbn [app length] in R. rewrite R. reflexivity.
Qed.

Definition ex_asked : list (list bytes * qtype * qclass) := [(ex_www, QT TXT, QIN); (ex_ftp, QT_ANY, QIN)].
Example C103_ex : Forall (fun '(ls, t, k) => Forall (fun l : bytes => (1 <= length l <= 191)%nat /\ ~ In 46 l) ls /\ qdecodable ex_cfg t) ex_asked /\
  exists p bs p', history ex_cfg (map ask ex_asked) (create Default) = Ok p /\ packet_to_bytes ex_cfg p = Ok bs /\ packet_try_from ex_cfg bs = Ok p' /\ map seen (p_questions p') = map asked ex_asked.
Proof.
  split.
  - repeat constructor; cbn; try lia; intuition discriminate.
  - do 3 eexists. split; [vm_compute; reflexivity|]. split; [vm_compute; reflexivity|]. split; vm_compute; reflexivity.
Qed.
Example C103_ex_calls : starts_counted (NewReply 7) /\ Forall keeps_counts ex_history /\ always_fits ex_history (first_sections (NewReply 7)) /\
  origin_with (question_ok ex_cfg) (NewReply 7) /\ Forall (call_with (question_ok ex_cfg) (rr_plain_ok ex_cfg)) ex_history /\ Forall (call_with (question_ok ex_cfg) (rr_ok ex_cfg)) ex_history.
Proof.
  assert (Rp : rr_plain_ok ex_cfg ex_rr). { pose proof ex_packet_plain as (_ & _ & P). rewrite Forall_forall in P. apply P. vm_compute. auto 10. }
  assert (Q : question_ok ex_cfg ex_question) by apply C22_ex.
  split; [exact I|]. split; [repeat constructor|]. split; [cbn; unfold fits_counts; cbn; repeat split; try lia; intros []; cbn; lia|]. split; [reflexivity|].
  split; repeat (constructor; try exact Q; try exact Rp; try exact I; try reflexivity; try apply Rp).
Qed.
Print Assumptions C103_plain_partial.
Print Assumptions C103_compressed_partial.
Print Assumptions C103_readme.
Print Assumptions C103_with_questions_refuted.
