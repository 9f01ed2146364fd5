(** * Lemmas about Packet.v: reading back whole packets, sizes, and when writing succeeds. *)
From Verif Require Import Base Utf8 Buffer Fqdn Header Types RDataBasic Bitmap Svcb RDataSec RData Packet BaseFacts BufferFacts
  NameSpec FqdnLoop FqdnFacts CompressSpec ChunkFacts CodeSpec CodeFacts HeaderSpec HeaderFacts RDataSpec RDataReads SvcbFacts
  RDataFacts RecordSpec RecordFacts RecordProps.
From Coq Require Import Lia ZifyBool ZifyNat ZifyN.
Ltac Zify.zify_post_hook ::= Z.div_mod_to_equations.
Local Opaque reads be.

(** ** Results *)
Lemma concat_res_ok {A} (f : A -> res bytes) l bs : concat_res f l = Ok bs <->
  exists bss, Forall2 (fun x b => f x = Ok b) l bss /\ bs = concat bss.
Proof.
  revert bs. induction l as [|x l IH]; intros bs; cbn [concat_res].
  - split.
    + intros E. apply Ok_inj in E. subst. exists []. split; [constructor|reflexivity].
    + intros (bss & H & ->). inversion H. reflexivity.
  - split.
    + intros E. apply rbind_ok in E. destruct E as (b & E1 & E). apply rbind_ok in E. destruct E as (r & E2 & E).
      apply Ok_inj in E. subst bs. apply IH in E2. destruct E2 as (bss & H & ->).
      exists (b :: bss). split; [constructor; assumption|reflexivity].
    + intros (bss & H & ->). inversion H as [|? b ? bss' H1 H2]; subst. rewrite H1. cbn [rbind].
      replace (concat_res f l) with (Ok (concat bss')) by (symmetry; apply IH; exists bss'; split; [assumption|reflexivity]).
      reflexivity.
Qed.
Lemma sum_res_total {A} (f : A -> res nat) l : Forall (fun x => exists n, f x = Ok n) l -> exists n, sum_res f l = Ok n.
Proof.
  induction 1 as [|x l [n E] _ [k IH]]; cbn [sum_res]; [eexists; reflexivity|]. rewrite E, IH. eexists; reflexivity.
Qed.
Lemma concat_res_total {A} (f : A -> res bytes) l : Forall (fun x => exists b, f x = Ok b) l -> exists b, concat_res f l = Ok b.
Proof.
  induction 1 as [|x l [n E] _ [k IH]]; cbn [concat_res]; [eexists; reflexivity|]. rewrite E, IH. eexists; reflexivity.
Qed.

(** ** The header with the counts put right *)
Definition lens16 (p : packet) : packet :=
  let h := p_header p in
  mkPacket (mkheader (id h) (hflags h) (len16 (length (p_questions p))) (len16 (length (p_answers p)))
                     (len16 (length (p_authorities p))) (len16 (length (p_additionals p))))
           (p_questions p) (p_answers p) (p_authorities p) (p_additionals p).
Lemma lens16_recount p : small_sections p -> lens16 p = recount p.
Proof. intros (A & B & C & D). unfold lens16, recount. rewrite !len16_id by lia. reflexivity. Qed.
Lemma recount_same p : counts_of p = true_counts p -> recount p = p.
Proof.
  destruct p as [[i f q a n d] qs an au ad]. unfold counts_of, true_counts, recount.
  cbn [p_header p_questions p_answers p_authorities p_additionals id hflags ques_count ans_count auth_count add_count].
  intros E. injection E as -> -> -> ->. reflexivity.
Qed.
Lemma counts_small p : header_typed (p_header p) -> counts_of p = true_counts p -> small_sections p.
Proof.
  intros (_ & _ & A & B & C & D) E. unfold counts_of, true_counts in E. injection E as Eq Ea En Ed.
  unfold small_sections. rewrite <- Eq, <- Ea, <- En, <- Ed. lia.
Qed.
Lemma patched_header_eq p : patched_header p = header_to_bytes (p_header (lens16 p)).
Proof.
  unfold patched_header, lens16, header_to_bytes. cbn [p_header id hflags ques_count ans_count auth_count add_count].
  Transparent be. reflexivity. Opaque be.
Qed.
Lemma lens16_typed p : header_typed (p_header p) -> header_typed (p_header (lens16 p)).
Proof.
  intros (A & B & _). unfold header_typed, lens16. cbn [p_header id hflags ques_count ans_count auth_count add_count].
  unfold len16, u16. repeat split; try assumption; apply N.mod_lt; lia.
Qed.

(** ** Plain *)
Lemma reads_questions c qs pre suf : Forall (question_ok c) qs ->
  reads pre suf (repeatP (length qs) (question_try_from c)) (flat_map (question_to_bytes c) qs) qs.
Proof.
  intros F. rewrite flat_map_concat_map. apply reads_repeat. induction F as [|q qs H F IH]; constructor; [|exact IH].
  intros. apply reads_question, H.
Qed.
Lemma reads_records c rs : Forall (rr_plain_ok c) rs ->
  exists bs, concat_res (rr_to_bytes c) rs = Ok bs /\
    forall pre suf, reads pre suf (repeatP (length rs) (rr_try_from c)) bs rs.
Proof.
  intros F.
  assert (G : exists bss, Forall2 (fun x b => rr_to_bytes c x = Ok b) rs bss /\
                Forall2 (fun bs v => forall pre suf, reads pre suf (rr_try_from c) bs v) bss rs).
  { induction F as [|r rs H F (bss & F1 & F2)]; [exists []; split; constructor|].
    destruct (reads_rr c r H) as (b & E & R). exists (b :: bss). split; constructor; assumption. }
  destruct G as (bss & F1 & F2). exists (concat bss). split.
  - apply concat_res_ok. exists bss. split; [exact F1|reflexivity].
  - intros. apply reads_repeat, F2.
Qed.

Lemma records_forall {P : rr -> Prop} p : Forall P (records_of p) ->
  Forall P (p_answers p) /\ Forall P (p_authorities p) /\ Forall P (p_additionals p).
Proof. unfold records_of. rewrite !Forall_app. tauto. Qed.

Lemma rr_plain_size c r : rdata_typed c (rr_data r) -> exists n, rr_byte_size c r = Ok n.
Proof.
  intros T. destruct (rdata_size_total c _ T) as [n E]. unfold rr_byte_size. rewrite E. eexists; reflexivity.
Qed.
Lemma packet_size_total c p : Forall (fun r => rdata_typed c (rr_data r)) (records_of p) ->
  exists n, packet_byte_size c p = Ok n.
Proof.
  intros F. apply records_forall in F. destruct F as (Fa & Fn & Fd).
  assert (G : forall l, Forall (fun r => rdata_typed c (rr_data r)) l -> exists n, sum_res (rr_byte_size c) l = Ok n).
  { intros l H. apply sum_res_total. eapply Forall_impl; [|exact H]. intros r. apply rr_plain_size. }
  destruct (G _ Fa) as [a Ea], (G _ Fn) as [n En], (G _ Fd) as [d Ed]. unfold packet_byte_size. rewrite Ea, En, Ed.
  eexists; reflexivity.
Qed.

Lemma plain_typed c l : Forall (rr_plain_ok c) l -> Forall (fun r => rdata_typed c (rr_data r)) l.
Proof. apply Forall_impl. intros r H. apply H. Qed.

Lemma reads_packet c p : packet_plain_ok c p -> small_sections p ->
  exists bs, packet_to_bytes c p = Ok bs /\ forall pre suf, reads pre suf (packet_try_from_buf c) bs (recount p).
Proof.
  intros (H & Q & R) S. destruct (packet_size_total c p) as [n En]; [apply plain_typed, R|].
  apply records_forall in R. destruct R as (Ra & Rn & Rd).
  destruct (reads_records c _ Ra) as (ba & Ea & RA), (reads_records c _ Rn) as (bn & Eb & RB),
           (reads_records c _ Rd) as (bd & Ed & RD).
  exists (patched_header p ++ flat_map (question_to_bytes c) (p_questions p) ++ ba ++ bn ++ bd). split.
  - unfold packet_to_bytes. rewrite En, Ea, Eb, Ed. reflexivity.
  - intros pre suf. rewrite patched_header_eq, <- (lens16_recount p S). unfold packet_try_from_buf.
    eapply reads_bind; [apply reads_header, lens16_typed, H|].
    rewrite (lens16_recount p S). unfold recount. cbn [p_header id hflags ques_count ans_count auth_count add_count].
    rewrite !Nnat.Nat2N.id.
    eapply reads_bind; [apply reads_questions, Q|].
    eapply reads_bind; [apply RA|]. eapply reads_bind; [apply RB|]. apply reads_bind_ret, RD.
Qed.

Lemma packet_roundtrip c p : packet_plain_ok c p -> small_sections p ->
  exists bs, packet_to_bytes c p = Ok bs /\ forall suf, packet_try_from c (bs ++ suf) = Ok (recount p).
Proof.
  intros H S. destruct (reads_packet c p H S) as (bs & E & R). exists bs. split; [exact E|].
  intros suf. Transparent reads. specialize (R [] suf). unfold reads in R. cbn [app length] in R.
  unfold packet_try_from, buf_from. rewrite R. reflexivity. Opaque reads.
Qed.

(** ** Compressed *)
Section Compressed.
  Context (c : cfg) (h : hasher) (U : fqdn -> Prop) (NC : no_collision h U).
  Notation dict := (dict_ok h U 191).

  Lemma questions_prefix qs : forall w m w' m', questions_compressed c h qs w m = (w', m') -> exists bs, w' = w ++ bs.
  Proof.
    induction qs as [|q qs IH]; intros w m w' m' E; cbn [questions_compressed] in E.
    - injection E as <- _. exists []. symmetry. apply app_nil_r.
    - destruct (question_to_bytes_compressed c h q m (length w)) as [b m1]. destruct (IH _ _ _ _ E) as [bs ->].
      exists (b ++ bs). symmetry. apply app_assoc.
  Qed.
  Lemma records_prefix rs : forall w m w' m', records_compressed c h rs w m = Ok (w', m') -> exists bs, w' = w ++ bs.
  Proof.
    induction rs as [|r rs IH]; intros w m w' m' E; cbn [records_compressed] in E.
    - apply Ok_inj in E. injection E as <- _. exists []. symmetry. apply app_nil_r.
    - apply rbind_ok in E. destruct E as ([b m1] & E1 & E). cbn [fst snd] in E. destruct (IH _ _ _ _ E) as [bs ->].
      exists (b ++ bs). symmetry. apply app_assoc.
  Qed.

  Lemma compressed_questions qs : Forall (question_ok c) qs -> names_in U (map q_name qs) ->
    forall w m w' m', dict w m -> questions_compressed c h qs w m = (w', m') -> N.of_nat (length w') <= 16384 ->
    exists bs, w' = w ++ bs /\ (forall suf, reads w suf (repeatP (length qs) (question_try_from c)) bs qs) /\ dict w' m'.
  Proof.
    induction 1 as [|q qs H F IH]; intros S w m w' m' D E B; cbn [questions_compressed] in E.
    - injection E as <- <-. exists []. split; [symmetry; apply app_nil_r|]. split; [|exact D].
      intros. cbn [length repeatP]. apply reads_ret.
    - destruct (question_to_bytes_compressed c h q m (length w)) as [b m1] eqn:E1.
      destruct (questions_prefix _ _ _ _ _ E) as [x Ex].
      destruct (compressed_question c h U NC w m q b m1 H) as [R D1]; try assumption.
      { apply S. left. reflexivity. }
      { rewrite Ex in B. rewrite !app_length in B. lia. }
      destruct (IH (fun f I => S f (or_intror I)) (w ++ b) m1 w' m' D1 E B) as (bs & -> & RR & D2).
      exists (b ++ bs). split; [symmetry; apply app_assoc|]. split; [|exact D2].
      intros suf. cbn [length repeatP]. eapply reads_bind; [apply R|]. apply reads_bind_ret, RR.
  Qed.

  Lemma compressed_records rs : Forall (rr_ok c) rs -> names_in U (flat_map rr_names rs) ->
    forall w m w' m', dict w m -> records_compressed c h rs w m = Ok (w', m') -> N.of_nat (length w') <= 16384 ->
    exists bs, w' = w ++ bs /\ (forall suf, reads w suf (repeatP (length rs) (rr_try_from c)) bs rs) /\ dict w' m'.
  Proof.
    induction 1 as [|r rs H F IH]; intros S w m w' m' D E B; cbn [records_compressed] in E.
    - apply Ok_inj in E. injection E as <- <-. exists []. split; [symmetry; apply app_nil_r|]. split; [|exact D].
      intros. cbn [length repeatP]. apply reads_ret.
    - apply rbind_ok in E. destruct E as ([b m1] & E1 & E). cbn [fst snd] in E.
      destruct (records_prefix _ _ _ _ _ E) as [x Ex].
      destruct (compressed_rr c h U NC w m r b m1 H) as [R D1]; try assumption.
      { intros f I. apply S. cbn [flat_map]. apply in_or_app. left. exact I. }
      { rewrite Ex in B. rewrite !app_length in B. lia. }
      destruct (IH (fun f I => S f (in_or_app _ _ _ (or_intror I))) (w ++ b) m1 w' m' D1 E B) as (bs & -> & RR & D2).
      exists (b ++ bs). split; [symmetry; apply app_assoc|]. split; [|exact D2].
      intros suf. cbn [length repeatP]. eapply reads_bind; [apply R|]. apply reads_bind_ret, RR.
  Qed.

  Lemma compressed_packet p bs : packet_ok c p -> counts_of p = true_counts p -> names_in U (packet_names p) ->
    packet_to_bytes_compressed c h p = Ok bs -> N.of_nat (length bs) <= 16384 ->
    forall suf, reads [] suf (packet_try_from_buf c) bs p.
  Proof.
    intros (H & Q & R) K S E B suf. apply records_forall in R. destruct R as (Ra & Rn & Rd).
    unfold packet_names, records_of in S. rewrite !flat_map_app in S.
    unfold packet_to_bytes_compressed in E.
    destruct (questions_compressed c h (p_questions p) (header_to_bytes (p_header p)) []) as [w0 m0] eqn:E0.
    apply rbind_ok in E. destruct E as ([w1 m1] & E1 & E). cbn [fst snd] in E.
    apply rbind_ok in E. destruct E as ([w2 m2] & E2 & E). cbn [fst snd] in E.
    apply rbind_ok in E. destruct E as ([w3 m3] & E3 & E). cbn [fst snd] in E. apply Ok_inj in E. subst w3.
    destruct (records_prefix _ _ _ _ _ E3) as [x3 X3]. destruct (records_prefix _ _ _ _ _ E2) as [x2 X2].
    destruct (records_prefix _ _ _ _ _ E1) as [x1 X1].
    assert (L : N.of_nat (length w0) <= 16384 /\ N.of_nat (length w1) <= 16384 /\ N.of_nat (length w2) <= 16384).
    { clear - B X1 X2 X3. subst. rewrite !app_length in *. lia. }
    destruct L as (L0 & L1 & L2). clear X1 X2 X3.
    destruct (compressed_questions _ Q (fun f I => S f (in_or_app _ _ _ (or_introl I))) _ _ _ _ (dict_ok_nil _ _ _ _) E0 L0)
      as (b0 & -> & R0 & D0).
    destruct (compressed_records _ Ra (fun f I => S f (in_or_app _ _ _ (or_intror (in_or_app _ _ _ (or_introl I))))) _ _ _ _ D0 E1 L1)
      as (b1 & -> & R1 & D1).
    destruct (compressed_records _ Rn (fun f I => S f (in_or_app _ _ _ (or_intror (in_or_app _ _ _ (or_intror (in_or_app _ _ _ (or_introl I))))))) _ _ _ _ D1 E2 L2)
      as (b2 & -> & R2 & D2).
    destruct (compressed_records _ Rd (fun f I => S f (in_or_app _ _ _ (or_intror (in_or_app _ _ _ (or_intror (in_or_app _ _ _ (or_intror I))))))) _ _ _ _ D2 E3 B)
      as (b3 & -> & R3 & _).
    rewrite <- !app_assoc. unfold packet_try_from_buf. eapply reads_bind; [apply reads_header, H|].
    cbn [app].
    unfold counts_of, true_counts in K. injection K as K1 K2 K3 K4. rewrite K1, K2, K3, K4, !Nnat.Nat2N.id.
    eapply reads_bind; [apply R0|]. eapply reads_bind; [apply R1|].
    eapply reads_bind; [apply R2|].
    eapply reads_ext; [reflexivity| |apply reads_bind_ret, R3].
    destruct p as [hh qs an au ad]. reflexivity.
  Qed.
End Compressed.

Lemma packet_compressed c h p bs : packet_ok c p -> counts_of p = true_counts p -> hash_separates h (packet_names p) ->
  packet_to_bytes_compressed c h p = Ok bs -> N.of_nat (length bs) <= 16384 ->
  forall suf, packet_try_from c (bs ++ suf) = Ok p.
Proof.
  intros H K HS E B suf.
  pose proof (compressed_packet c h (tail_of (packet_names p)) HS p bs H K (names_in_self _) E B suf) as R.
  Transparent reads. unfold reads in R. cbn [app length] in R. unfold packet_try_from, buf_from. rewrite R. reflexivity.
Qed.
