(** * The sizes announced for the compressed forms. *)
From Coq Require Import Lia ZifyBool ZifyNat ZifyN.
From Verif Require Import Base Buffer Fqdn Header Types RDataBasic Bitmap Svcb RDataSec RData Packet Misc BaseFacts
  HeaderFacts FqdnFacts BitmapFacts RDataSpec RDataFacts.

(** What a size function answers, against what the writer returns. *)
Definition announces (s : nat * names) (b : bytes * names) : Prop :=
  fst s = length (fst b) /\ same_keys (snd s) (snd b).

Lemma same_keys_refl m : same_keys m m.
Proof. intros k. tauto. Qed.
Lemma same_keys_sym m1 m2 : same_keys m1 m2 -> same_keys m2 m1.
Proof. intros H k. split; apply H. Qed.

Lemma name_announced h f m1 m2 o1 o2 : same_keys m1 m2 ->
  announces (fqdn_byte_size_compressed h f m1 o1) (fqdn_to_bytes_compressed h f m2 o2).
Proof. intros K. rewrite compressed_size. apply (compressed_size_offsets h f m1 m2 o1 o2 K). Qed.

Ltac step h f m1 o1 m2 o2 E :=
  let A := fresh "A" in
  pose proof (name_announced h f m1 m2 o1 o2 E) as A;
  destruct (fqdn_byte_size_compressed h f m1 o1), (fqdn_to_bytes_compressed h f m2 o2);
  destruct A as [A ?K]; cbn [fst snd] in *.
Ltac lens := unfold announces; cbn [fst snd]; split;
  [rewrite ?app_length, ?be_length; cbn [length]; try lia|assumption].

Lemma minfo_announced h x m off : announces (minfo_byte_size_compressed h x m off) (minfo_to_bytes_compressed h x m off).
Proof.
  unfold minfo_byte_size_compressed, minfo_to_bytes_compressed.
  step h (minfo_r x) m off m off (same_keys_refl m).
  step h (minfo_e x) n0 off n1 (off + length b)%nat K. lens.
Qed.
Lemma mx_announced h x m off : announces (mx_byte_size_compressed h x m off) (mx_to_bytes_compressed h x m off).
Proof.
  unfold mx_byte_size_compressed, mx_to_bytes_compressed.
  step h (mx_exchange x) m off m (off + 2)%nat (same_keys_refl m). lens.
Qed.
Lemma naptr_fixed x : naptr_fixed_size x = length (naptr_fixed_bytes x).
Proof.
  unfold naptr_fixed_size, naptr_fixed_bytes, char_string.
  rewrite ?app_length, ?be_length; cbn [length]; rewrite map_length; lia.
Qed.
Lemma naptr_announced h x m off : announces (naptr_byte_size_compressed h x m off) (naptr_to_bytes_compressed h x m off).
Proof.
  unfold naptr_byte_size_compressed, naptr_to_bytes_compressed. cbv zeta. rewrite naptr_fixed.
  step h (na_repl x) m (off + length (naptr_fixed_bytes x))%nat m (off + length (naptr_fixed_bytes x))%nat (same_keys_refl m). lens.
Qed.
Lemma soa_announced h x m off : announces (soa_byte_size_compressed h x m off) (soa_to_bytes_compressed h x m off).
Proof.
  unfold soa_byte_size_compressed, soa_to_bytes_compressed, soa_fixed_bytes.
  step h (soa_mname x) m off m off (same_keys_refl m).
  step h (soa_rname x) n0 off n1 (off + length b)%nat K. lens.
Qed.
Lemma srv_announced h x m off : announces (srv_byte_size_compressed h x m off) (srv_to_bytes_compressed h x m off).
Proof.
  unfold srv_byte_size_compressed, srv_to_bytes_compressed, srv_fixed_bytes.
  step h (srv_target x) m (off + 6)%nat m (off + 6)%nat (same_keys_refl m). lens.
Qed.
Lemma nsec_announced c h x m off : sorted_by rtype_code (ns_types x) ->
  exists s b, nsec_byte_size_compressed c h x m off = Ok s /\ nsec_to_bytes_compressed c h x m off = Ok b /\ announces s b.
Proof.
  intros T. unfold nsec_byte_size_compressed, nsec_to_bytes_compressed.
  destruct (types_bytes_size c _ T) as (bs & -> & ->).
  step h (ns_next x) m off m off (same_keys_refl m). cbn [rbind].
  eexists _, _. split; [reflexivity|]. split; [reflexivity|]. lens.
Qed.
Lemma question_announced c h q m1 m2 o1 o2 : same_keys m1 m2 ->
  announces (question_byte_size_compressed h q m1 o1) (question_to_bytes_compressed c h q m2 o2).
Proof.
  intros E. unfold question_byte_size_compressed, question_to_bytes_compressed.
  step h (q_name q) m1 o1 m2 o2 E. lens.
Qed.

(** The octets written for the data, counted, depend on the keys of the dictionary only. *)
Definition both (s b : res (bytes * names)) : Prop :=
  match s, b with
  | Ok s, Ok b => length (fst s) = length (fst b) /\ same_keys (snd s) (snd b)
  | Err e, Err e' => e = e'
  | Panic, Panic => True
  | Diverge, Diverge => True
  | _, _ => False
  end.
Ltac step2 h f m1 o1 m2 o2 E :=
  let A := fresh "A" in
  pose proof (compressed_size_offsets h f m1 m2 o1 o2 E) as A;
  destruct (fqdn_to_bytes_compressed h f m1 o1), (fqdn_to_bytes_compressed h f m2 o2);
  destruct A as [A ?K]; cbn [fst snd] in *.
Ltac lens2 := cbn [both fst snd]; split; [rewrite ?app_length, ?be_length; cbn [length]; lia|assumption].
Lemma data_offsets c h d m1 m2 o1 o2 : same_keys m1 m2 ->
  both (rdata_to_bytes_compressed c h d m1 o1) (rdata_to_bytes_compressed c h d m2 o2).
Proof.
  intros K.
  assert (G : both (let! b := rdata_to_bytes c d in Ok (b, m1)) (let! b := rdata_to_bytes c d in Ok (b, m2)))
    by (destruct (rdata_to_bytes c d); cbn [rbind both fst snd]; auto).
  destruct d; cbn [rdata_to_bytes_compressed]; try exact G; clear G;
    unfold name_to_bytes_compressed, soa_to_bytes_compressed, minfo_to_bytes_compressed, mx_to_bytes_compressed,
      srv_to_bytes_compressed, naptr_to_bytes_compressed, nsec_to_bytes_compressed; cbv zeta.
  - exact (compressed_size_offsets h x m1 m2 o1 o2 K).
  - exact (compressed_size_offsets h x m1 m2 o1 o2 K).
  - step2 h (soa_mname x) m1 o1 m2 o2 K.
    step2 h (soa_rname x) n (o1 + length b)%nat n0 (o2 + length b0)%nat K0. lens2.
  - exact (compressed_size_offsets h x m1 m2 o1 o2 K).
  - step2 h (minfo_r x) m1 o1 m2 o2 K.
    step2 h (minfo_e x) n (o1 + length b)%nat n0 (o2 + length b0)%nat K0. lens2.
  - step2 h (mx_exchange x) m1 (o1 + 2)%nat m2 (o2 + 2)%nat K. lens2.
  - step2 h (srv_target x) m1 (o1 + 6)%nat m2 (o2 + 6)%nat K. lens2.
  - step2 h (na_repl x) m1 (o1 + length (naptr_fixed_bytes x))%nat m2 (o2 + length (naptr_fixed_bytes x))%nat K. lens2.
  - step2 h (ns_next x) m1 o1 m2 o2 K.
    destruct (types_to_bytes c (ns_types x)); cbn [rbind both]; auto. lens2.
Qed.
Definition told (s : res (nat * names)) (b : res (bytes * names)) : Prop :=
  match s, b with
  | Ok s, Ok b => announces s b
  | Err e, Err e' => e = e'
  | Panic, Panic => True
  | Diverge, Diverge => True
  | _, _ => False
  end.
Lemma rr_announced c h r m1 m2 o1 o2 : same_keys m1 m2 ->
  told (rr_byte_size_compressed c h r m1 o1) (rr_to_bytes_compressed c h r m2 o2).
Proof.
  intros E. unfold rr_byte_size_compressed, rr_to_bytes_compressed, rdata_byte_size_compressed. cbv zeta.
  step h (rr_name r) m1 o1 m2 o2 E.
  match goal with |- context [rdata_to_bytes_compressed c h (rr_data r) n1 ?o] =>
    pose proof (data_offsets c h (rr_data r) n0 n1 o1 o K) as D;
    destruct (rdata_to_bytes_compressed c h (rr_data r) n0 o1), (rdata_to_bytes_compressed c h (rr_data r) n1 o) end;
    cbn [rbind both told] in *; try contradiction; auto.
  destruct D as [D1 D2]. unfold announces; cbn [fst snd]. split; [|exact D2].
  rewrite ?app_length, ?be_length. lia.
Qed.

(** ** A whole packet: the sizes of its parts added up, in the order they are written *)
Fixpoint questions_size (h : hasher) (qs : list question) (n : nat) (m : names) : nat * names :=
  match qs with
  | [] => (n, m)
  | q :: qs' => let '(k, m') := question_byte_size_compressed h q m n in questions_size h qs' (n + k) m'
  end.
Fixpoint records_size (c : cfg) (h : hasher) (rs : list rr) (n : nat) (m : names) : res (nat * names) :=
  match rs with
  | [] => Ok (n, m)
  | r :: rs' => let! s := rr_byte_size_compressed c h r m n in records_size c h rs' (n + fst s) (snd s)
  end.
Definition packet_size (c : cfg) (h : hasher) (p : packet) : res nat :=
  let '(n, m) := questions_size h (p_questions p) (header_byte_size_compressed (p_header p) [] 0) [] in
  let! s := records_size c h (p_answers p ++ p_authorities p ++ p_additionals p) n m in
  Ok (fst s).

Lemma questions_announced c h qs : forall b m1 m2, same_keys m1 m2 ->
  announces (questions_size h qs (length b) m1) (questions_compressed c h qs b m2).
Proof.
  induction qs as [|q qs IH]; intros b m1 m2 K; cbn [questions_size questions_compressed].
  - split; [reflexivity|exact K].
  - pose proof (question_announced c h q m1 m2 (length b) (length b) K) as A.
    destruct (question_byte_size_compressed h q m1 (length b)) as [k m1'],
             (question_to_bytes_compressed c h q m2 (length b)) as [x m2'].
    destruct A as [A K']. cbn [fst snd] in A, K'. subst k. rewrite <- app_length. apply IH, K'.
Qed.
Lemma records_announced c h rs : forall b m1 m2, same_keys m1 m2 ->
  told (records_size c h rs (length b) m1) (records_compressed c h rs b m2).
Proof.
  induction rs as [|r rs IH]; intros b m1 m2 K; cbn [records_size records_compressed].
  - split; [reflexivity|exact K].
  - pose proof (rr_announced c h r m1 m2 (length b) (length b) K) as A.
    destruct (rr_byte_size_compressed c h r m1 (length b)) as [[k m1']| | |],
             (rr_to_bytes_compressed c h r m2 (length b)) as [[x m2']| | |]; cbn [told rbind] in *; try contradiction; auto.
    destruct A as [A K']. cbn [fst snd] in *. subst k. rewrite <- app_length. apply IH, K'.
Qed.
Lemma records_app c h rs1 rs2 : forall b m, records_compressed c h (rs1 ++ rs2) b m =
  let! s := records_compressed c h rs1 b m in records_compressed c h rs2 (fst s) (snd s).
Proof.
  induction rs1 as [|r rs1 IH]; intros b m; cbn [app records_compressed rbind]; [reflexivity|].
  destruct (rr_to_bytes_compressed c h r m (length b)); cbn [rbind]; [apply IH|reflexivity..].
Qed.
Lemma packet_announced c h p :
  packet_size c h p = let! out := packet_to_bytes_compressed c h p in Ok (length out).
Proof.
  unfold packet_size, packet_to_bytes_compressed, header_byte_size_compressed, header_byte_size.
  pose proof (questions_announced c h (p_questions p) (header_to_bytes (p_header p)) [] [] (same_keys_refl [])) as A.
  rewrite header_length in A. change HEADER_SIZE with 12%nat.
  destruct (questions_size h (p_questions p) 12 []) as [n m1],
           (questions_compressed c h (p_questions p) (header_to_bytes (p_header p)) []) as [b m2].
  destruct A as [A K]. cbn [fst snd] in A, K. subst n.
  pose proof (records_announced c h (p_answers p ++ p_authorities p ++ p_additionals p) b m1 m2 K) as R.
  replace (let! s1 := records_compressed c h (p_answers p) b m2 in
           let! s2 := records_compressed c h (p_authorities p) (fst s1) (snd s1) in
           let! s3 := records_compressed c h (p_additionals p) (fst s2) (snd s2) in Ok (fst s3))
    with (let! s := records_compressed c h (p_answers p ++ p_authorities p ++ p_additionals p) b m2 in Ok (fst s)).
  - destruct (records_size c h _ (length b) m1), (records_compressed c h _ b m2); cbn [rbind told] in *; try contradiction; try congruence.
    destruct R as [R _]. congruence.
  - rewrite records_app. destruct (records_compressed c h (p_answers p) b m2); cbn [rbind]; [|reflexivity..].
    rewrite records_app. destruct (records_compressed c h (p_authorities p) _ _); cbn [rbind]; reflexivity.
Qed.
