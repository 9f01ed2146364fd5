(** * Property C121: replies find their queries, in whatever order they arrive *)
From Coq Require Import Lia ZifyBool ZifyNat ZifyN.
From Verif Require Import Base Buffer Fqdn Header Types RDataBasic Svcb RDataSec RData Packet BaseFacts FqdnFacts CompressSpec HeaderSpec HeaderFacts CodeSpec RDataSpec RDataReads RecordSpec PacketFacts PacketProps
  PropName PropRecord PropPacket.

(** ** What users write *)
(** The client: a packet with one question; *)
Definition asked (i : N) (rd : bool) (q : question) : packet := set_questions (packet_new_query i rd) [q].
(** the server: a reply with the id and the questions of what it has read, and the answers it has for them. *)
Definition answered_by (f : list question -> list rr) (p : packet) : packet :=
  set_answers (set_questions (packet_new_reply (id (p_header p))) (p_questions p)) (f (p_questions p)).
(** The client keeps the queries that have no answer yet.  A message is for one of them if it is a reply with its id and its question ([==] of [Question] is derived,
    question.rs:247); that query is then done.  Messages that cannot be parsed and replies to nothing are thrown away. *)
Definition question_eq_dec : forall a b : question, {a = b} + {a <> b}.
Proof. repeat decide equality. Defined.
Definition is_for (p : packet) (x : N * question) : bool :=
  query_response (p_header p) && (id (p_header p) =? fst x) && (if list_eq_dec question_eq_dec (p_questions p) [snd x] then true else false).
Fixpoint attend (c : cfg) (waiting : list (N * question)) (arrived : list bytes) : res (list (N * question * list rr)) :=
  match arrived with
  | [] => Ok []
  | d :: ds =>
    match packet_try_from c d with
    | Ok p =>
      match find (is_for p) waiting with
      | Some x => let! rest := attend c (filter (fun y => negb (fst y =? fst x)) waiting) ds in Ok ((x, p_answers p) :: rest)
      | None => attend c waiting ds
      end
    | Err _ => attend c waiting ds
    | Panic => Panic
    | Diverge => Diverge
    end
  end.
(** A packet as it is sent, in either form. *)
Inductive sent_as (c : cfg) (p : packet) : bytes -> Prop :=
| as_plain d : packet_to_bytes c p = Ok d -> sent_as c p d
| as_compressed h d : hash_separates h (packet_names p) -> packet_to_bytes_compressed c h p = Ok d -> N.of_nat (length d) <= 16384 -> sent_as c p d.
(** A reply of the server to a query of the client. *)
Definition reply_to (c : cfg) (f : list question -> list rr) (rd : bool) (x : N * question) (d : bytes) : Prop :=
  exists m p, sent_as c (asked (fst x) rd (snd x)) m /\ packet_try_from c m = Ok p /\ sent_as c (answered_by f p) d.
(** A message the client throws away. *)
Definition thrown_away (c : cfg) (waiting : list (N * question)) (d : bytes) : Prop :=
  (exists e, packet_try_from c d = Err e) \/ exists p, packet_try_from c d = Ok p /\ forall x, In x waiting -> is_for p x = false.

(** ** Proofs *)
Lemma sent_reads c p d : packet_plain_ok c p -> counts_of p = true_counts p -> sent_as c p d -> packet_try_from c d = Ok p.
Proof.
  intros P K [d' W|h d' S W L].
  - destruct (packet_roundtrip c p P (counts_small p (proj1 P) K)) as (bs & E & F). rewrite W in E. apply Ok_inj in E. subst bs.
    specialize (F []). rewrite app_nil_r, (recount_same p K) in F. exact F.
  - rewrite <- (app_nil_r d'). exact (packet_compressed c h p d' (plain_is_ok c p P) K S W L []).
Qed.
Lemma new_query_typed i rd : i < 65536 -> header_typed (header_new_query i rd).
Proof. intros L. unfold header_typed. destruct rd; vm_compute raw; cbn; repeat split; try exact L; reflexivity. Qed.
Lemma asked_ok c i rd q : i < 65536 -> question_ok c q -> packet_plain_ok c (asked i rd q) /\ counts_of (asked i rd q) = true_counts (asked i rd q).
Proof.
  intros L Q. split; [|reflexivity]. split; [|split; [constructor; [exact Q|constructor]|constructor]].
  destruct (new_query_typed i rd L) as (H1 & H2 & _). unfold header_typed. split; [exact H1|]. split; [exact H2|]. repeat split.
Qed.
Lemma answered_ok c f i rd q : i < 65536 -> question_ok c q -> Forall (rr_plain_ok c) (f [q]) -> N.of_nat (length (f [q])) <= 65535 ->
  let r := answered_by f (asked i rd q) in packet_plain_ok c r /\ counts_of r = true_counts r /\ query_response (p_header r) = true /\ id (p_header r) = i /\ p_questions r = [q] /\ p_answers r = f [q].
Proof.
  intros L Q F Lf. cbv zeta. unfold answered_by, asked. cbn [p_questions set_questions p_header with_counts id packet_new_query header_new_query].
  split; [|split; [|split; [reflexivity|repeat split]]].
  - split; [|split; [constructor; [exact Q|constructor]|]].
    + unfold header_typed. cbn [set_answers p_header with_counts id hflags ques_count ans_count auth_count add_count]. rewrite (len16_id (length (f [q]))) by lia. repeat split; try reflexivity; [exact L|lia].
    + unfold records_of. cbn [set_answers p_answers p_authorities p_additionals set_questions packet_new_reply]. rewrite app_nil_r. exact F.
  - unfold counts_of, true_counts. cbn [set_answers p_header with_counts ques_count ans_count auth_count add_count p_questions p_answers p_authorities p_additionals set_questions packet_new_reply].
    rewrite (len16_id (length (f [q]))) by lia. reflexivity.
Qed.
Lemma reply_reads c f rd i q d : i < 65536 -> question_ok c q -> Forall (rr_plain_ok c) (f [q]) -> N.of_nat (length (f [q])) <= 65535 -> reply_to c f rd (i, q) d ->
  exists p, packet_try_from c d = Ok p /\ p_answers p = f [q] /\ forall x, is_for p x = true <-> x = (i, q).
Proof.
  intros L Q F Lf (m & p & S1 & E1 & S2). cbn [fst snd] in S1. destruct (asked_ok c i rd q L Q) as (P1 & K1). rewrite (sent_reads c _ m P1 K1 S1) in E1. apply Ok_inj in E1. subst p.
  destruct (answered_ok c f i rd q L Q F Lf) as (P2 & K2 & R & I & Qs & A). exists (answered_by f (asked i rd q)). split; [exact (sent_reads c _ d P2 K2 S2)|]. split; [exact A|].
  intros [i' q']. unfold is_for. rewrite R, I, Qs. cbn [fst snd andb]. destruct (N.eqb_spec i i') as [->|X]; cbn [andb].
  - destruct (list_eq_dec question_eq_dec [q] [q']) as [Y|Y]; split; intros H; try discriminate; try reflexivity; [injection Y as ->; reflexivity|congruence].
  - split; [discriminate|congruence].
Qed.
Lemma is_for_parts p x : is_for p x = true -> query_response (p_header p) = true /\ id (p_header p) = fst x /\ p_questions p = [snd x].
Proof.
  unfold is_for. destruct (query_response _), (N.eqb_spec (id (p_header p)) (fst x)), (list_eq_dec question_eq_dec (p_questions p) [snd x]); cbn [andb]; try discriminate; auto.
Qed.
Lemma distinct_filter {A} (g : A -> N) (t : A -> bool) l : NoDup (map g l) -> NoDup (map g (filter t l)).
Proof.
  induction l as [|x l IH]; cbn [map filter]; [auto|]. intros H. inversion H as [|? ? X Y]; subst. destruct (t x); [|apply IH, Y]. cbn [map]. constructor; [|apply IH, Y].
  intros I. apply X. apply in_map_iff in I. destruct I as (y & E & I). apply in_map_iff. exists y. apply filter_In in I. split; [exact E|apply I].
Qed.
Lemma distinct_same (w : list (N * question)) x y : NoDup (map fst w) -> In x w -> In y w -> fst x = fst y -> x = y.
Proof.
  induction w as [|z w IH]; cbn [map In]; [contradiction|]. intros H [->|X] [->|Y] E; inversion H as [|? ? P R]; subst; auto; exfalso; apply P.
  - rewrite E. apply in_map, Y.
  - rewrite <- E. apply in_map, X.
Qed.

(** ** C121 *)

(** Whatever arrives: an answer that is delivered was in a message with the flag, the id and the question of a query that had been sent; and no query gets two. *)
Theorem C121_sound : forall (c : cfg) (waiting : list (N * question)) (arrived : list bytes) (out : list (N * question * list rr)), attend c waiting arrived = Ok out ->
  NoDup (map (fun o => fst (fst o)) out) /\
  forall x a, In (x, a) out -> In x waiting /\ exists d p, In d arrived /\ packet_try_from c d = Ok p /\ query_response (p_header p) = true /\ id (p_header p) = fst x /\
    p_questions p = [snd x] /\ p_answers p = a.
Proof.
  intros c waiting arrived. revert waiting. induction arrived as [|d ds IH]; intros w out E; cbn [attend] in E.
  - injection E as <-. split; [constructor|]. intros x a [].
  - assert (N : attend c w ds = Ok out -> NoDup (map (fun o => fst (fst o)) out) /\
      forall x a, In (x, a) out -> In x w /\ exists d' p, In d' (d :: ds) /\ packet_try_from c d' = Ok p /\ query_response (p_header p) = true /\ id (p_header p) = fst x /\
        p_questions p = [snd x] /\ p_answers p = a).
    { intros H. destruct (IH w out H) as (D & X). split; [exact D|]. intros x a I. destruct (X x a I) as (Y & d' & p & Id & Z). split; [exact Y|]. exists d', p. split; [right; exact Id|exact Z]. }
    destruct (packet_try_from c d) as [p|e| |] eqn:Ep; try discriminate; [|exact (N E)]. destruct (find (is_for p) w) as [y|] eqn:Ef; [|exact (N E)]. clear N.
    apply find_some in Ef. destruct Ef as [Iy Fy]. apply is_for_parts in Fy. apply rbind_ok in E. destruct E as (rest & Er & E). apply Ok_inj in E. subst out. destruct (IH _ _ Er) as (D & X). split.
    + cbn [map fst]. constructor; [|exact D]. intros I. apply in_map_iff in I. destruct I as ([x a] & E & I). cbn [fst] in E. destruct (X x a I) as (Y & _). apply filter_In in Y.
      destruct Y as [_ Y]. rewrite E, N.eqb_refl in Y. discriminate Y.
    + intros x a [E|I].
      * injection E as <- <-. split; [exact Iy|]. exists d, p. split; [left; reflexivity|]. split; [exact Ep|]. destruct Fy as (F1 & F2 & F3). auto.
      * destruct (X x a I) as (Y & d' & p' & Id & Z). apply filter_In in Y. split; [apply Y|]. exists d', p'. split; [right; exact Id|exact Z].
Qed.
(** Replies in any order, some of them lost, some of them twice, between messages that are thrown away: every query of which a reply has arrived gets the answers the server has for its
    question, once. *)
Theorem C121_matched_partial : forall (c : cfg) (f : list question -> list rr) (rd : bool) (waiting : list (N * question)) (arrived : list bytes),
  NoDup (map fst waiting) ->
  Forall (fun x => fst x < 65536 /\ question_ok c (snd x) /\ Forall (rr_plain_ok c) (f [snd x]) /\ N.of_nat (length (f [snd x])) <= 65535) waiting ->
  Forall (fun d => (exists x, In x waiting /\ reply_to c f rd x d) \/ thrown_away c waiting d) arrived ->
  exists out, attend c waiting arrived = Ok out /\ NoDup (map (fun o => fst (fst o)) out) /\
    (forall x a, In (x, a) out -> In x waiting /\ a = f [snd x]) /\
    (forall x d, In x waiting -> In d arrived -> reply_to c f rd x d -> In (x, f [snd x]) out).
Proof.
  intros c f rd all arrived D V F.
  assert (X : forall w, incl w all -> NoDup (map fst w) -> exists out, attend c w arrived = Ok out /\ (forall x a, In (x, a) out -> a = f [snd x]) /\
    (forall x d, In x w -> In d arrived -> reply_to c f rd x d -> In (x, f [snd x]) out)).
  { rewrite Forall_forall in V. induction F as [|d ds H F IH]; intros w I Dw; cbn [attend].
    - exists []. split; [reflexivity|]. split; [intros x a []|intros x d _ []].
    - assert (T : (forall p, packet_try_from c d = Ok p -> find (is_for p) w = None) -> (exists p, packet_try_from c d = Ok p) \/ (exists e, packet_try_from c d = Err e) ->
        (forall x, In x w -> ~ reply_to c f rd x d) ->
        exists out, match packet_try_from c d with
          | Ok p => match find (is_for p) w with Some x => let! rest := attend c (filter (fun y => negb (fst y =? fst x)) w) ds in Ok ((x, p_answers p) :: rest) | None => attend c w ds end
          | Err _ => attend c w ds | Panic => Panic | Diverge => Diverge end = Ok out /\
          (forall x a, In (x, a) out -> a = f [snd x]) /\ (forall x d', In x w -> In d' (d :: ds) -> reply_to c f rd x d' -> In (x, f [snd x]) out)).
      { intros N1 N2 N3. destruct (IH w I Dw) as (out & E & S1 & S2). exists out. split; [|split; [exact S1|]].
        - destruct N2 as [(p & Ep)|(e & Ep)]; rewrite Ep; [rewrite (N1 p Ep)|]; exact E.
        - intros x d' Ix [<-|Id] R; [destruct (N3 x Ix R)|exact (S2 x d' Ix Id R)]. }
      destruct H as [([i q] & Ix & R)|H].
      + destruct (V _ Ix) as (V1 & V2 & V3 & V4). cbn [fst snd] in V1, V2, V3, V4. destruct (reply_reads c f rd i q d V1 V2 V3 V4 R) as (p & Ep & A & M).
        destruct (find (is_for p) w) as [y|] eqn:Ef.
        * clear T. rewrite Ep, Ef. pose proof (find_some _ _ Ef) as [Iy Fy]. apply M in Fy. subst y.
          destruct (IH (filter (fun y => negb (fst y =? i)) w)) as (out & E & S1 & S2). { intros z Iz. apply filter_In in Iz. apply I, Iz. } { apply distinct_filter, Dw. }
          cbn [fst]. rewrite E. cbn [rbind]. exists ((i, q, p_answers p) :: out). split; [reflexivity|]. split.
          { intros x a [Z|Z]; [injection Z as <- <-; exact A|exact (S1 x a Z)]. }
          { intros x d' Iz Id Rz. destruct (N.eqb_spec (fst x) i) as [Z|Z].
            - left. rewrite (distinct_same w x (i, q) Dw Iz Iy Z). cbn [snd]. rewrite A. reflexivity.
            - destruct Id as [<-|Id].
              + exfalso. destruct x as [i' q']. destruct (V (i', q') (I _ Iz)) as (W1 & W2 & W3 & W4). cbn [fst snd] in W1, W2, W3, W4, Z.
                destruct (reply_reads c f rd i' q' d W1 W2 W3 W4 Rz) as (p' & Ep' & _ & M'). rewrite Ep in Ep'. apply Ok_inj in Ep'. subst p'.
                assert (B : is_for p (i', q') = true) by (apply M'; reflexivity). apply M in B. congruence.
              + right. apply (S2 x d'); [|exact Id|exact Rz]. apply filter_In. split; [exact Iz|]. destruct (N.eqb_spec (fst x) i); [contradiction|reflexivity]. }
        * apply T; [intros p' E'; rewrite Ep in E'; apply Ok_inj in E'; subst p'; exact Ef|left; exists p; exact Ep|].
          intros [i' q'] Iz Rz. destruct (V (i', q') (I _ Iz)) as (W1 & W2 & W3 & W4). cbn [fst snd] in W1, W2, W3, W4.
          destruct (reply_reads c f rd i' q' d W1 W2 W3 W4 Rz) as (p' & Ep' & _ & M'). rewrite Ep in Ep'. apply Ok_inj in Ep'. subst p'.
          pose proof (find_none _ _ Ef _ Iz) as B. rewrite (proj2 (M' (i', q')) eq_refl) in B. discriminate B.
      + apply T.
        * intros p Ep. destruct H as [(e & H)|(p' & E' & H)]; [congruence|]. rewrite Ep in E'. apply Ok_inj in E'. subst p'.
          destruct (find (is_for p) w) as [y|] eqn:Ef; [|reflexivity]. apply find_some in Ef. destruct Ef as [Iy Fy]. rewrite (H y (I _ Iy)) in Fy. discriminate Fy.
        * destruct H as [(e & H)|(p' & E' & _)]; [right; exists e; exact H|left; exists p'; exact E'].
        * intros [i' q'] Iz Rz. destruct (V (i', q') (I _ Iz)) as (W1 & W2 & W3 & W4). cbn [fst snd] in W1, W2, W3, W4.
          destruct (reply_reads c f rd i' q' d W1 W2 W3 W4 Rz) as (p' & Ep' & _ & M'). destruct H as [(e & H)|(p2 & E2 & H)]; [congruence|]. rewrite Ep' in E2. apply Ok_inj in E2. subst p2.
          pose proof (H _ (I _ Iz)) as B. rewrite (proj2 (M' (i', q')) eq_refl) in B. discriminate B. }
  destruct (X all (fun x H => H) D) as (out & E & S1 & S2). exists out. split; [exact E|]. destruct (C121_sound c all arrived out E) as (S3 & S4). split; [exact S3|]. split; [|exact S2].
  intros x a I. split; [apply (S4 x a I)|exact (S1 x a I)].
Qed.
(** False if the query is made with [Packet::with_questions] and sent in compressed form: its header counts no question, the server reads none, and its reply is for nobody. *)
Theorem C121_constructor_refuted : forall (c : cfg) (f : list question -> list rr) (rd : bool) (h : hasher) (i : N) (q : question) (m : bytes), i < 65536 ->
  packet_to_bytes_compressed c h (packet_with_questions i rd [q]) = Ok m ->
  packet_try_from c m = Ok (packet_new_query i rd) /\
  (Forall (rr_plain_ok c) (f []) -> N.of_nat (length (f [])) <= 65535 -> forall d, sent_as c (answered_by f (packet_new_query i rd)) d -> attend c [(i, q)] [d] = Ok []).
Proof.
  intros c f rd h i q m L W. split.
  - unfold packet_to_bytes_compressed in W. cbn [p_questions p_header packet_with_questions p_answers p_authorities p_additionals records_compressed questions_compressed] in W.
    destruct (question_to_bytes_compressed c h q [] (length (header_to_bytes (header_new_query i rd)))) as [b m']. cbn [rbind fst snd] in W. apply Ok_inj in W. subst m.
    apply (packet_compressed c h (packet_new_query i rd) (header_to_bytes (header_new_query i rd))).
    + split; [apply new_query_typed, L|]. split; constructor.
    + reflexivity.
    + intros s1 s2 (_ & f1 & a1 & H & _). cbn in H. destruct H.
    + reflexivity.
    + rewrite header_length. discriminate.
  - intros F Lf d S. assert (P : packet_plain_ok c (answered_by f (packet_new_query i rd)) /\ counts_of (answered_by f (packet_new_query i rd)) = true_counts (answered_by f (packet_new_query i rd))).
    { split.
      - split; [|split; [constructor|]].
        + unfold header_typed, answered_by. cbn [packet_new_query p_questions set_answers set_questions p_header with_counts id hflags ques_count ans_count auth_count add_count length]. assert (Z : N.of_nat (length (f [])) < 65536) by lia. rewrite (len16_id (length (f []))) by lia.
          repeat split; try reflexivity; [exact L|exact Z].
        + unfold records_of, answered_by. cbn [packet_new_query p_questions set_answers set_questions p_answers p_authorities p_additionals packet_new_reply]. rewrite app_nil_r. exact F.
      - unfold counts_of, true_counts, answered_by. cbn [packet_new_query packet_new_reply p_questions set_answers set_questions p_header with_counts ques_count ans_count auth_count add_count p_answers p_authorities p_additionals].
        rewrite (len16_id (length (f []))) by lia. reflexivity. }
    cbn [attend]. rewrite (sent_reads c _ d (proj1 P) (proj2 P) S). cbn [find]. unfold is_for.
    change (p_questions (answered_by f (packet_new_query i rd))) with (@nil question). destruct (list_eq_dec question_eq_dec [] [snd (i, q)]) as [E|_]; [discriminate E|]. rewrite andb_false_r. reflexivity.
Qed.
(** And one message of fourteen octets, from anybody, keeps the client busy for ever, whatever it waits for. *)
Theorem C121_stuck_refuted : forall (c : cfg) (waiting : list (N * question)) (arrived : list bytes), attend c waiting ((one_question ++ [192; 12]) :: arrived) = Diverge.
Proof. intros c w ds. cbn [attend]. rewrite C36_loop_refuted. reflexivity. Qed.

(** Two queries that differ in the id; the replies come in the other order, one of them twice, after a message that cannot be read. *)
Definition ex_answers (qs : list question) : list rr := p_answers ex_packet.
Definition ex_waiting : list (N * question) := [(7, ex_question); (9, mkQ ex_ftp (QT A) QIN false)].
Example C121_ex : NoDup (map fst ex_waiting) /\
  Forall (fun x => fst x < 65536 /\ question_ok ex_cfg (snd x) /\ Forall (rr_plain_ok ex_cfg) (ex_answers [snd x]) /\ N.of_nat (length (ex_answers [snd x])) <= 65535) ex_waiting /\
  exists d1 d2, reply_to ex_cfg ex_answers true (7, ex_question) d1 /\ reply_to ex_cfg ex_answers true (9, mkQ ex_ftp (QT A) QIN false) d2 /\ thrown_away ex_cfg ex_waiting [1; 2; 3] /\
    attend ex_cfg ex_waiting [[1; 2; 3]; d2; d1; d2] = Ok [(9, mkQ ex_ftp (QT A) QIN false, p_answers ex_packet); (7, ex_question, p_answers ex_packet)] /\
    exists m, packet_to_bytes_compressed ex_cfg ex_hash (packet_with_questions 7 true [ex_question]) = Ok m.
Proof.
  assert (F : Forall (rr_plain_ok ex_cfg) (p_answers ex_packet)).
  { assert (F : Forall (rr_plain_ok ex_cfg) (records_of ex_packet)) by apply ex_packet_plain. unfold records_of in F. apply Forall_app in F. apply F. }
  split; [repeat constructor; cbn; intuition discriminate|]. split.
  - constructor; [|constructor; [|constructor]]; (split; [reflexivity|]); (split; [|split; [exact F|vm_compute; discriminate]]).
    + apply C22_ex.
    + split; [unfold ex_ftp, fqdn_ok, label_ok; repeat constructor; cbn; lia|]. split; [vm_compute; repeat split; discriminate|]. intros H; discriminate H.
  - do 2 eexists. split; [|split; [|split; [|split]]].
    + do 2 eexists. split; [apply as_plain; vm_compute; reflexivity|]. split; [vm_compute; reflexivity|]. apply as_plain. vm_compute. reflexivity.
    + do 2 eexists. split; [apply as_plain; vm_compute; reflexivity|]. split; [vm_compute; reflexivity|]. apply as_plain. vm_compute. reflexivity.
    + left. eexists. vm_compute. reflexivity.
    + vm_compute. reflexivity.
    + eexists. vm_compute. reflexivity.
Qed.
Print Assumptions C121_sound.
Print Assumptions C121_matched_partial.
Print Assumptions C121_constructor_refuted.
Print Assumptions C121_stuck_refuted.
