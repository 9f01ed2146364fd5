(** * C110: messages of limited size: entries left out or added. *)
From Coq Require Import Lia ZifyNat ZifyN Permutation.
From Verif Require Import Base Buffer Fqdn Header Types RDataBasic RData Packet BaseFacts FqdnFacts CompressSpec ChunkFacts RecordSpec ApiSpec PacketProps OrderSpec OrderFacts PropName PropRecord PropPacket.

Lemma name_least h f m o : (1 <= fst (fqdn_byte_size_compressed h f m o))%nat.
Proof.
  revert m o. induction f as [|l f IH]; intros m o; cbn [fqdn_byte_size_compressed]; [cbn; lia|]. destruct (names_get _ _); cbn [fst]; [lia|].
  specialize (IH (names_insert (h (l :: f)) o m) (o + (length l + 1))%nat). destruct (fqdn_byte_size_compressed h f _ _). cbn [fst] in *. lia.
Qed.
Lemma names_least h fs : forall m, (length fs <= fst (names_size h fs m))%nat.
Proof. induction fs as [|f fs IH]; intros m; cbn [names_size length]; [cbn; lia|]. cbv zeta. cbn [fst]. pose proof (name_least h f m 0). specialize (IH (snd (fqdn_byte_size_compressed h f m 0))). lia. Qed.
Lemma names_most h fs : Forall (Forall (fun l => nonempty l = true)) fs -> forall m, (fst (names_size h fs m) <= plain_names fs)%nat.
Proof.
  induction 1 as [|f fs H F IH]; intros m; cbn [names_size]; [cbn; lia|]. cbv zeta. cbn [fst]. rewrite (compressed_size h f m 0). cbn [fst snd]. pose proof (compressed_not_longer h f H m 0).
  specialize (IH (snd (fqdn_to_bytes_compressed h f m 0))). unfold plain_names in *. cbn [total fold_right]. unfold total in IH. lia.
Qed.
Lemma rests_least c rs : forall k, rests c rs = Ok k -> (10 * length rs <= k)%nat.
Proof.
  induction rs as [|r rs IH]; intros k E; cbn [rests fold_right length] in *; [apply ok_inj in E; lia|]. apply rbind_ok in E. destruct E as (a & _ & E). apply rbind_ok in E. destruct E as (b & Eb & E). apply ok_inj in E. specialize (IH b Eb). lia.
Qed.
Lemma names_in_records rs : (length rs <= length (flat_map rr_names rs))%nat.
Proof. induction rs as [|r rs IH]; cbn [flat_map length]; [lia|]. rewrite app_length. unfold rr_names at 1. cbn [length]. lia. Qed.
Lemma dropped c h p p' qs rs out : hash_separates h (packet_names p) -> Permutation (p_questions p) (p_questions p' ++ qs) -> Permutation (records_of p) (records_of p' ++ rs) ->
  packet_to_bytes_compressed c h p = Ok out ->
  exists out' k, packet_to_bytes_compressed c h p' = Ok out' /\ rests c rs = Ok k /\ exists m,
    length out = (length out' + 4 * length qs + k + fst (names_size h (map q_name qs ++ flat_map rr_names rs) m))%nat.
Proof.
  intros HS PQ PR E. destruct (message_length c h p out HS E) as (k & n & R & S & L).
  pose proof (rests_perm c _ _ PR k R) as R2. rewrite rests_app in R2. apply rbind_ok in R2. destruct R2 as (k1 & R1 & R2). apply rbind_ok in R2. destruct R2 as (k2 & R2 & Ek). apply ok_inj in Ek.
  pose proof (packet_held c h p') as H. rewrite R1 in H. destruct (packet_to_bytes_compressed c h p') as [out'| | |]; try contradiction.
  destruct H as (k1' & X & L'). apply ok_inj in X. subst k1'. exists out', k2. split; [reflexivity|]. split; [exact R2|].
  assert (PN : Permutation (packet_names p) (packet_names p' ++ map q_name qs ++ flat_map rr_names rs)).
  { unfold packet_names. eapply Permutation_trans; [apply Permutation_app; [apply Permutation_map, PQ|apply flat_map_perm, PR]|]. rewrite map_app, flat_map_app, <- !app_assoc.
    apply Permutation_app_head. rewrite !app_assoc. apply Permutation_app_tail, Permutation_app_comm. }
  exists (snd (names_size h (packet_names p') [])). pose proof (names_shared h _ (separates_perm h _ _ PN HS)) as S2.
  pose proof (shared_unique _ _ _ (shared_perm _ _ _ PN S) S2) as ->. rewrite names_size_app in L. cbn [fst] in L. rewrite L, L', (Permutation_length PQ), app_length. lia.
Qed.
(** Questions and records left out of a message, anywhere: what is left can be written, and it is shorter by at least five octets for every question and eleven for every record.  So
    a part of a message that fits a datagram fits it, too. *)
Theorem C110_left_out_partial : forall (c : cfg) (h : hasher) (p p' : packet) (qs : list question) (rs : list rr) (out : bytes), hash_separates h (packet_names p) ->
  Permutation (p_questions p) (p_questions p' ++ qs) -> Permutation (records_of p) (records_of p' ++ rs) -> packet_to_bytes_compressed c h p = Ok out ->
  exists out', packet_to_bytes_compressed c h p' = Ok out' /\ (length out' + 5 * length qs + 11 * length rs <= length out)%nat.
Proof.
  intros c h p p' qs rs out HS PQ PR E. destruct (dropped c h p p' qs rs out HS PQ PR E) as (out' & k & E' & R & m & L). exists out'. split; [exact E'|].
  pose proof (rests_least c rs k R). pose proof (names_least h (map q_name qs ++ flat_map rr_names rs) m) as N. rewrite app_length, map_length in N. pose proof (names_in_records rs). lia.
Qed.
(** Added: it grows by at most the octets of the new entries in plain form, where they are known from [byte_size] (C24, C25). *)
Theorem C110_added_partial : forall (c : cfg) (h : hasher) (p p' : packet) (qs : list question) (rs : list rr) (bss : list bytes) (out out' : bytes), hash_separates h (packet_names p') ->
  Permutation (p_questions p') (p_questions p ++ qs) -> Permutation (records_of p') (records_of p ++ rs) ->
  Forall (Forall (fun l => nonempty l = true)) (map q_name qs ++ flat_map rr_names rs) -> Forall2 (fun r b => rr_to_bytes c r = Ok b) rs bss ->
  packet_to_bytes_compressed c h p = Ok out -> packet_to_bytes_compressed c h p' = Ok out' ->
  (length out' <= length out + length (flat_map (question_to_bytes c) qs) + length (concat bss))%nat.
Proof.
  intros c h p p' qs rs bss out out' HS PQ PR N F E E'. destruct (dropped c h p' p qs rs out' HS PQ PR E') as (o & k & Eo & R & m & L). rewrite E in Eo. apply ok_inj in Eo. subst o.
  assert (X : concat_res (rr_to_bytes c) rs = Ok (concat bss)).
  { clear - F. induction F as [|r b rs bss H F IH]; [reflexivity|]. cbn [concat_res concat]. rewrite H. cbn [rbind]. rewrite IH. reflexivity. }
  destruct (records_plain c rs _ X) as (k' & R' & Lb). rewrite R in R'. apply ok_inj in R'. subst k'. rewrite questions_plain, Lb, L. pose proof (names_most h _ N m) as M. rewrite plain_app in M. lia.
Qed.
Lemma separates_sub h (a b : list fqdn) : hash_separates h a -> incl b a -> hash_separates h b.
Proof. intros HS I s t (Ns & f & x & F & Ef) (Nt & g & y & G & Eg) E. apply HS; [split; [exact Ns|eauto]|split; [exact Nt|eauto]|exact E]. Qed.
(** With calls of the API. *)
Theorem C110_calls_partial : forall (c : cfg) (h : hasher) (p p' : packet) (k : call) (out out' : bytes), run c k p = Ok p' -> hash_separates h (packet_names p ++ packet_names p') ->
  packet_to_bytes_compressed c h p = Ok out -> packet_to_bytes_compressed c h p' = Ok out' ->
  match k with
  | AddQuestion q => (length out + 5 <= length out')%nat /\ (Forall (fun l => nonempty l = true) (q_name q) -> (length out' <= length out + length (question_to_bytes c q))%nat)
  | AddRecord s r => (length out + 11 <= length out')%nat /\
      forall b, rr_to_bytes c r = Ok b -> Forall (Forall (fun l => nonempty l = true)) (rr_names r) -> (length out' <= length out + length b)%nat
  | TakeQuestions => (length out' + 5 * length (p_questions p) <= length out)%nat
  | TakeRecords s => (length out' + 11 * length (snd (sections_of p) s) <= length out)%nat
  | SetId _ | SetFlag _ | SetHeader _ => length out' = length out
  | _ => True
  end.
Proof.
  intros c h p p' k out out' H HS E E'.
  assert (S : same_sections (sections_of p') (meaning k (sections_of p))) by (apply (history_meaning c [k]); cbn [history]; rewrite H; reflexivity).
  assert (H1 : hash_separates h (packet_names p)) by (apply (separates_sub _ _ _ HS); intros f F; apply in_or_app; auto).
  assert (H2 : hash_separates h (packet_names p')) by (apply (separates_sub _ _ _ HS); intros f F; apply in_or_app; auto).
  assert (QS : fst (meaning k (sections_of p)) = p_questions p') by (symmetry; apply S).
  assert (RS : records_of p' = snd (meaning k (sections_of p)) Answers ++ snd (meaning k (sections_of p)) Authorities ++ snd (meaning k (sections_of p)) Additionals).
  { destruct S as [_ S]. rewrite <- !S. reflexivity. }
  destruct k as [q|qs| |s r|s rs|s|i|f|hd|qs]; try exact I; cbn [meaning sections_of fst snd] in QS, RS.
  - assert (PQ : Permutation (p_questions p') (p_questions p ++ [q])) by (rewrite QS; apply Permutation_refl).
    assert (PR : Permutation (records_of p') (records_of p ++ [])) by (rewrite RS, app_nil_r; apply Permutation_refl). split.
    + destruct (C110_left_out_partial c h p' p [q] [] out' H2 PQ PR E') as (o & Eo & L). rewrite E in Eo. apply ok_inj in Eo. subst o. cbn [length] in L. lia.
    + intros N. pose proof (C110_added_partial c h p p' [q] [] [] out out' H2 PQ PR) as X. cbn [flat_map map app concat length] in X. rewrite app_nil_r in X. specialize (X ltac:(repeat constructor; exact N) ltac:(constructor) E E'). lia.
  - assert (PQ : Permutation (p_questions p) (p_questions p' ++ p_questions p)) by (rewrite <- QS; apply Permutation_refl).
    assert (PR : Permutation (records_of p) (records_of p' ++ [])) by (rewrite RS, app_nil_r; apply Permutation_refl).
    destruct (C110_left_out_partial c h p p' _ [] out H1 PQ PR E) as (o & Eo & L). rewrite E' in Eo. apply ok_inj in Eo. subst o. cbn [length] in L. lia.
  - assert (PQ : Permutation (p_questions p') (p_questions p ++ [])) by (rewrite <- QS, app_nil_r; apply Permutation_refl).
    assert (PR : Permutation (records_of p') (records_of p ++ [r])).
    { rewrite RS. unfold records_of, update. destruct s; cbn [same_section]; rewrite <- !app_assoc; repeat apply Permutation_app_head; [|apply (Permutation_app_comm [r])|apply Permutation_refl].
      rewrite (app_assoc (p_authorities p)). apply (Permutation_app_comm [r]). }
    split.
    + destruct (C110_left_out_partial c h p' p [] [r] out' H2 PQ PR E') as (o & Eo & L). rewrite E in Eo. apply ok_inj in Eo. subst o. cbn [length] in L. lia.
    + intros b Eb N. pose proof (C110_added_partial c h p p' [] [r] [b] out out' H2 PQ PR) as X. cbn [flat_map map app concat length] in X. rewrite !app_nil_r in X. specialize (X N ltac:(repeat constructor; exact Eb) E E'). lia.
  - assert (PQ : Permutation (p_questions p) (p_questions p' ++ [])) by (rewrite <- QS, app_nil_r; apply Permutation_refl).
    assert (PR : Permutation (records_of p) (records_of p' ++ snd (sections_of p) s)).
    { rewrite RS. unfold records_of, update. destruct s; cbn [same_section sections_of snd app].
      - apply Permutation_app_comm.
      - rewrite <- app_assoc. apply Permutation_app_head, Permutation_app_comm.
      - rewrite app_nil_r, <- app_assoc. apply Permutation_refl. }
    destruct (C110_left_out_partial c h p p' [] _ out H1 PQ PR E) as (o & Eo & L). rewrite E' in Eo. apply ok_inj in Eo. subst o. cbn [length] in L. lia.
  - destruct (order_length c h p p' out H1) as (o & Eo & L); [rewrite QS; apply Permutation_refl|rewrite RS; apply Permutation_refl|exact E|]. rewrite E' in Eo. apply ok_inj in Eo. subst o. exact L.
  - destruct (order_length c h p p' out H1) as (o & Eo & L); [rewrite QS; apply Permutation_refl|rewrite RS; apply Permutation_refl|exact E|]. rewrite E' in Eo. apply ok_inj in Eo. subst o. exact L.
  - destruct (order_length c h p p' out H1) as (o & Eo & L); [rewrite QS; apply Permutation_refl|rewrite RS; apply Permutation_refl|exact E|]. rewrite E' in Eo. apply ok_inj in Eo. subst o. exact L.
Qed.
(** Plain: what is added takes exactly its own octets. *)
Theorem C110_plain : forall (c : cfg) (p p' : packet) (qs : list question) (rs : list rr) (bss : list bytes) (out out' : bytes),
  Permutation (p_questions p') (p_questions p ++ qs) -> Permutation (records_of p') (records_of p ++ rs) -> Forall2 (fun r b => rr_to_bytes c r = Ok b) rs bss ->
  packet_to_bytes c p = Ok out -> packet_to_bytes c p' = Ok out' ->
  (length out' = length out + length (flat_map (question_to_bytes c) qs) + length (concat bss))%nat.
Proof.
  intros c p p' qs rs bss out out' PQ PR F E E'. destruct (packet_plain c p out E) as (k & R & L), (packet_plain c p' out' E') as (k' & R' & L').
  apply (rests_perm c _ _ PR) in R'. rewrite rests_app, R in R'. cbn [rbind] in R'. apply rbind_ok in R'. destruct R' as (k2 & R2 & X). apply ok_inj in X.
  assert (Y : concat_res (rr_to_bytes c) rs = Ok (concat bss)).
  { clear - F. induction F as [|r b rs bss H F IH]; [reflexivity|]. cbn [concat_res concat]. rewrite H. cbn [rbind]. rewrite IH. reflexivity. }
  destruct (records_plain c rs _ Y) as (k3 & R3 & Lb). rewrite R2 in R3. apply ok_inj in R3. subst k3.
  assert (PN : plain_names (packet_names p') = (plain_names (packet_names p) + plain_names (map q_name qs) + plain_names (flat_map rr_names rs))%nat).
  { unfold packet_names. rewrite !plain_app. unfold plain_names. rewrite (total_perm _ _ _ (Permutation_map q_name PQ)), (total_perm _ _ _ (flat_map_perm rr_names _ _ PR)), map_app, flat_map_app, !total_app. lia. }
  rewrite L', L, questions_plain, Lb, PN, (Permutation_length PQ), app_length. lia.
Qed.
(** False where two names have the same hash: without its first question this message is longer. *)
Theorem C110_collision_refuted : exists (h : hasher) (c : cfg) (p p' : packet) (q : question) (out out' : bytes),
  p_questions p = q :: p_questions p' /\ records_of p = records_of p' /\ packet_to_bytes_compressed c h p = Ok out /\ packet_to_bytes_compressed c h p' = Ok out' /\ (length out < length out')%nat.
Proof.
  exists (fun _ => 7), ex_cfg, (packet_with_questions 1 true [question_new [[97]] (QT A) QIN; question_new [repeat 98 20] (QT A) QIN]),
    (packet_with_questions 1 true [question_new [repeat 98 20] (QT A) QIN]). do 3 eexists.
  split; [reflexivity|]. split; [reflexivity|]. split; [vm_compute; reflexivity|]. split; [vm_compute; reflexivity|]. cbn. lia.
Qed.
(** The example packet without its SOA record and its MX record: 105 octets, then 53. *)
Definition ex_part : packet := mkPacket (p_header ex_packet) (p_questions ex_packet) [mkRR ex_ftp A false CCH 60 (DA 16909060)] [] [].
Example C110_ex : hash_separates ex_hash (packet_names ex_packet) /\ Permutation (p_questions ex_packet) (p_questions ex_part ++ []) /\
  Permutation (records_of ex_packet) (records_of ex_part ++ [ex_rr; mkRR ex_www MX false CIN 5 (DMX (mkMx 10 ex_ftp))]) /\
  Forall (Forall (fun l => nonempty l = true)) (flat_map rr_names [ex_rr; mkRR ex_www MX false CIN 5 (DMX (mkMx 10 ex_ftp))]) /\
  exists bss out out', Forall2 (fun r b => rr_to_bytes ex_cfg r = Ok b) [ex_rr; mkRR ex_www MX false CIN 5 (DMX (mkMx 10 ex_ftp))] bss /\
    packet_to_bytes_compressed ex_cfg ex_hash ex_packet = Ok out /\ packet_to_bytes_compressed ex_cfg ex_hash ex_part = Ok out' /\ length out = 105%nat /\ length out' = 53%nat /\ length (concat bss) = 127%nat.
Proof.
  split; [exact ex_packet_separates|]. split; [apply Permutation_refl|]. split; [apply perm_swap|]. split; [repeat constructor|].
  do 3 eexists. split; [repeat constructor|]. split; [vm_compute; reflexivity|]. split; [vm_compute; reflexivity|]. cbn. repeat split.
Qed.
Example C110_ex_call : exists p' out out', run ex_cfg (AddRecord Answers ex_rr) ex_part = Ok p' /\ hash_separates ex_hash (packet_names ex_part ++ packet_names p') /\
  packet_to_bytes_compressed ex_cfg ex_hash ex_part = Ok out /\ packet_to_bytes_compressed ex_cfg ex_hash p' = Ok out'.
Proof. do 3 eexists. split; [vm_compute; reflexivity|]. split; [apply separates_b_true; vm_compute; reflexivity|]. split; vm_compute; reflexivity. Qed.
Example C110_ex_plain : exists out out', packet_to_bytes ex_cfg ex_part = Ok out /\ packet_to_bytes ex_cfg ex_packet = Ok out'.
Proof. do 2 eexists. split; vm_compute; reflexivity. Qed.
Print Assumptions C110_left_out_partial.
Print Assumptions C110_added_partial.
Print Assumptions C110_calls_partial.
Print Assumptions C110_plain.
Print Assumptions C110_collision_refuted.
