(** * Facts about headers. *)
From Verif Require Import Base Buffer Header BaseFacts BufferFacts HeaderSpec.
From Coq Require Import Lia ZifyBool ZifyNat ZifyN.

(** ** Bit fields *)
Lemma concat_bits y lo o i : lo < 2 ^ o ->
  N.testbit (y * 2 ^ o + lo) i = if i <? o then N.testbit lo i else N.testbit y (i - o).
Proof.
  intros H. assert (P : 2 ^ o <> 0) by (apply N.pow_nonzero; lia).
  destruct (N.ltb_spec i o).
  - rewrite <- (N.mod_pow2_bits_low (y * 2 ^ o + lo) o i) by assumption.
    rewrite N.add_comm, N.mod_add by assumption. rewrite N.mod_small by assumption. reflexivity.
  - replace i with (i - o + o) at 1 by lia. rewrite <- N.div_pow2_bits.
    rewrite N.div_add_l by assumption. rewrite (N.div_small lo) by assumption. rewrite N.add_0_r. reflexivity.
Qed.

Lemma get_bits o w f i : N.testbit (get_field o w f) i = (i <? w) && N.testbit (raw f) (i + o).
Proof.
  unfold get_field. destruct (N.ltb_spec i w).
  - rewrite N.mod_pow2_bits_low by assumption. rewrite N.div_pow2_bits. reflexivity.
  - rewrite N.mod_pow2_bits_high by assumption. reflexivity.
Qed.

Lemma set_bits o w f x i : x < 2 ^ w ->
  N.testbit (raw (set_field o w f x)) i =
  if i <? o then N.testbit (raw f) i else if i <? o + w then N.testbit x (i - o) else N.testbit (raw f) i.
Proof.
  intros H. unfold set_field. cbn [raw].
  assert (P : 2 ^ o <> 0) by (apply N.pow_nonzero; lia).
  replace (raw f / 2 ^ (o + w) * 2 ^ (o + w) + x * 2 ^ o + raw f mod 2 ^ o)
    with ((raw f / 2 ^ (o + w) * 2 ^ w + x) * 2 ^ o + raw f mod 2 ^ o).
  2:{ rewrite N.pow_add_r. lia. }
  rewrite concat_bits by (apply N.mod_lt; assumption).
  destruct (N.ltb_spec i o).
  - rewrite N.mod_pow2_bits_low by assumption. reflexivity.
  - rewrite concat_bits by assumption.
    destruct (N.ltb_spec (i - o) w), (N.ltb_spec i (o + w)); try reflexivity; try lia.
    rewrite N.div_pow2_bits. f_equal. lia.
Qed.

Lemma get_set_same o w f x : x < 2 ^ w -> get_field o w (set_field o w f x) = x.
Proof.
  intros H. apply N.bits_inj. intros i. rewrite get_bits, set_bits by assumption.
  destruct (N.ltb_spec i w); cbn [andb].
  - destruct (N.ltb_spec (i + o) o); [lia|]. destruct (N.ltb_spec (i + o) (o + w)); [|lia].
    f_equal. lia.
  - symmetry. rewrite <- (N.mod_small x (2 ^ w)) by assumption. apply N.mod_pow2_bits_high. assumption.
Qed.

Lemma get_set_other o w o' w' f x : x < 2 ^ w -> o + w <= o' \/ o' + w' <= o ->
  get_field o' w' (set_field o w f x) = get_field o' w' f.
Proof.
  intros H D. apply N.bits_inj. intros i. rewrite !get_bits, set_bits by assumption.
  destruct (N.ltb_spec i w'); cbn [andb]; [|reflexivity].
  destruct (N.ltb_spec (i + o') o); [reflexivity|]. destruct (N.ltb_spec (i + o') (o + w)); [lia|reflexivity].
Qed.

Lemma set_field_range o w f x k : x < 2 ^ w -> o + w <= k -> raw f < 2 ^ k -> raw (set_field o w f x) < 2 ^ k.
Proof.
  intros H D R. destruct (N.eq_dec (raw (set_field o w f x)) 0) as [->|Hz].
  - apply N.neq_0_lt_0, N.pow_nonzero. lia.
  - apply N.log2_lt_pow2; [lia|]. apply N.nle_gt. intros C.
    pose proof (N.bit_log2 _ Hz) as B. rewrite set_bits in B by assumption.
    set (i := N.log2 _) in *.
    destruct (N.ltb_spec i o); [lia|]. destruct (N.ltb_spec i (o + w)); [lia|].
    rewrite <- (N.mod_small (raw f) (2 ^ k)) in B by assumption.
    rewrite N.mod_pow2_bits_high in B by assumption. discriminate.
Qed.

(** ** The setters *)
Lemma b2n_bool b : negb (b2n b =? 0) = b.
Proof. destruct b; reflexivity. Qed.
Lemma b2n_lt b : b2n b < 2 ^ 1.
Proof. destruct b; cbn; lia. Qed.
Lemma opcode_lt o : opcode_code o < 2 ^ 4.
Proof. destruct o; cbn; lia. Qed.
Lemma rcode_lt r : response_code_code r < 2 ^ 4.
Proof. destruct r; cbn; lia. Qed.
Lemma lt01 : 0 < 2 ^ 1. Proof. cbn; lia. Qed.
Lemma lt11 : 1 < 2 ^ 1. Proof. cbn; lia. Qed.
Lemma lt04 : 0 < 2 ^ 4. Proof. cbn; lia. Qed.

Ltac fields :=
  repeat first
    [ rewrite get_set_same by auto using b2n_lt, opcode_lt, rcode_lt, lt01, lt11, lt04
    | rewrite get_set_other by (auto using b2n_lt, opcode_lt, rcode_lt, lt01, lt11, lt04; lia) ].

Lemma view_setter s h : view (call_setter s h) = apply_setter s (view h).
Proof.
  destruct h as [i f q a n d].
  destruct s as [b|b|b|o|[|]|r|[|]]; cbn [call_setter];
    unfold view, set_recursion_desired, set_truncation, set_authoritative_answer, set_opcode,
      set_query_response, set_response_code, set_recursion_available, with_flags, query_response, authoritative_answer,
      truncation, recursion_desired, recursion_available; cbn [apply_setter id hflags ques_count ans_count auth_count add_count];
    try (destruct r; cbn [is_noerror]);
    unfold rd, tc, aa, opcode_f, qr, rcode, z, ra, set_rd, set_tc, set_aa, set_opcode_f, set_qr, set_rcode, set_ra;
    fields; rewrite ?b2n_bool; reflexivity.
Qed.

Lemma view_history ss h :
  view (fold_left (fun h s => call_setter s h) ss h) = fold_left (fun v s => apply_setter s v) ss (view h).
Proof.
  revert h. induction ss as [|s ss IH]; intros h; cbn [fold_left]; [reflexivity|].
  rewrite IH, view_setter. reflexivity.
Qed.

Lemma pow16 : 65536 = 2 ^ 16. Proof. reflexivity. Qed.

Lemma setter_typed s h : header_typed h -> header_typed (call_setter s h).
Proof.
  unfold header_typed. destruct h as [i f q a n d]. cbn [id hflags ques_count ans_count auth_count add_count].
  rewrite pow16. intros (H1 & H2 & H3).
  destruct s as [b|b|b|o|[|]|r|[|]]; cbn [call_setter];
    unfold set_recursion_desired, set_truncation, set_authoritative_answer, set_opcode,
      set_query_response, set_response_code, set_recursion_available, with_flags, set_rd, set_tc, set_aa, set_opcode_f, set_qr,
      set_rcode, set_ra; cbn [id hflags ques_count ans_count auth_count add_count];
    try (destruct r); (split; [assumption|split; [|assumption]]);
    repeat (apply set_field_range; [auto using b2n_lt, opcode_lt, rcode_lt, lt01, lt11, lt04|lia|]); assumption.
Qed.

Lemma opcode_roundtrip o : opcode_from (opcode_code o) = o.
Proof. destruct o; reflexivity. Qed.
Lemma rcode_roundtrip r : response_code_try_from (response_code_code r) = Ok r.
Proof. destruct r; reflexivity. Qed.

Lemma opcode_set h o : header_opcode (set_opcode h o) = o.
Proof.
  unfold header_opcode, set_opcode, with_flags. cbn [hflags]. unfold opcode_f, set_opcode_f.
  rewrite get_set_same by apply opcode_lt. apply opcode_roundtrip.
Qed.
Lemma rcode_set h r : header_response_code (set_response_code h r) = Ok r.
Proof.
  unfold header_response_code.
  assert (E : rcode (hflags (set_response_code h r)) = response_code_code r).
  { pose proof (f_equal v_rcode (view_setter (SetResponseCode r) h)) as E. exact E. }
  rewrite E, rcode_roundtrip. reflexivity.
Qed.

(** ** The twelve octets *)
Lemma be2 n : n < 65536 -> be 2 n = [n / 256; n mod 256].
Proof. intros. cbn [be app]. f_equal. apply N.mod_small. apply N.div_lt_upper_bound; lia. Qed.

Lemma header_bytes_eq h : header_typed h ->
  header_to_bytes h = [id h / 256; id h mod 256; raw (hflags h) mod 256; raw (hflags h) / 256;
    ques_count h / 256; ques_count h mod 256; ans_count h / 256; ans_count h mod 256;
    auth_count h / 256; auth_count h mod 256; add_count h / 256; add_count h mod 256].
Proof.
  intros (H1 & H2 & H3 & H4 & H5 & H6). unfold header_to_bytes, flags_into_bytes.
  rewrite !be2 by assumption. reflexivity.
Qed.

Lemma header_length h : length (header_to_bytes h) = 12%nat.
Proof. unfold header_to_bytes, flags_into_bytes. rewrite !app_length, !be_length. reflexivity. Qed.

Lemma reads_header h pre suf : header_typed h -> reads pre suf header_try_from (header_to_bytes h) h.
Proof.
  intros (H1 & H2 & H3 & H4 & H5 & H6). unfold header_to_bytes, header_try_from.
  eapply reads_bind; [apply reads_u16; assumption|].
  eapply reads_bind; [apply (reads_bytes _ _ 2 (flags_into_bytes (hflags h))); reflexivity|].
  eapply reads_bind; [apply reads_u16; assumption|].
  eapply reads_bind; [apply reads_u16; assumption|].
  eapply reads_bind; [apply reads_u16; assumption|].
  eapply reads_ext; [reflexivity| |apply reads_bind_ret, reads_u16; assumption].
  unfold flags_from_bytes, flags_into_bytes. cbn [nth]. destruct h as [i [f] q a n d]. cbn [hflags raw id ques_count ans_count auth_count add_count] in *.
  f_equal. f_equal. pose proof (N.div_mod f 256). lia.
Qed.

Lemma twelve (bs : bytes) : length bs = 12%nat ->
  exists a b c d e f g h i j k l, bs = [a; b; c; d; e; f; g; h; i; j; k; l].
Proof.
  intros H. do 12 (destruct bs as [|? bs]; [discriminate|]). destruct bs; [|discriminate]. repeat eexists.
Qed.

(** Parsing any twelve octets. *)
Lemma header_of_bytes (bs : bytes) : byte_list bs -> length bs = 12%nat ->
  exists h, header_typed h /\ header_to_bytes h = bs.
Proof.
  intros HB HL. destruct (twelve bs HL) as (a & b & c & d & e & f & g & h & i & j & k & l & ->).
  unfold byte_list in HB. repeat rewrite Forall_cons_iff in HB.
  exists (mkheader (a * 256 + b) (mkflags (c + 256 * d)) (e * 256 + f) (g * 256 + h) (i * 256 + j) (k * 256 + l)).
  assert (T : header_typed (mkheader (a * 256 + b) (mkflags (c + 256 * d)) (e * 256 + f) (g * 256 + h) (i * 256 + j) (k * 256 + l))).
  { unfold header_typed. cbn [id hflags raw ques_count ans_count auth_count add_count]. lia. }
  split; [exact T|]. rewrite header_bytes_eq by exact T. cbn [id hflags raw ques_count ans_count auth_count add_count].
  repeat f_equal; try (rewrite N.div_add_l by lia; rewrite N.div_small by lia; lia);
    try (rewrite N.add_comm, N.mod_add by lia; apply N.mod_small; lia).
  - rewrite (N.mul_comm 256), N.mod_add by lia. apply N.mod_small; lia.
  - rewrite N.add_comm, (N.mul_comm 256), N.div_add_l by lia. rewrite N.div_small by lia. lia.
Qed.

Lemma bit_of_field f o : negb (get_field o 1 f =? 0) = N.testbit (raw f) o.
Proof.
  unfold get_field. change (2 ^ 1) with 2. rewrite <- N.bit0_mod, N.div_pow2_bits. cbn [N.add].
  destruct (N.testbit (raw f) o); reflexivity.
Qed.

Lemma fields_view h : header_typed h -> fields_of (header_to_bytes h) = view h.
Proof.
  intros T. rewrite header_bytes_eq by assumption. destruct T as (H1 & H2 & H3 & H4 & H5 & H6).
  unfold fields_of, view. cbn [nth].
  unfold query_response, authoritative_answer, truncation, recursion_desired, recursion_available, qr, aa, tc, rd, ra.
  rewrite !bit_of_field. set (r := raw (hflags h)) in *.
  assert (LO : forall i, i < 8 -> N.testbit (r mod 256) i = N.testbit r i)
    by (intros; apply (N.mod_pow2_bits_low r 8); assumption).
  assert (HI : forall i, N.testbit (r / 256) i = N.testbit r (i + 8))
    by (intros; apply (N.div_pow2_bits r 8)).
  rewrite !LO by lia. rewrite HI.
  assert (E : forall n, n / 256 * 256 + n mod 256 = n) by (intros n; pose proof (N.div_mod n 256); lia).
  rewrite !E. unfold opcode_f, z, rcode, get_field. fold r.
  change (2 ^ 3) with 8. change (2 ^ 4) with 16. change (2 ^ 12) with 4096. change (2 ^ 8) with 256.
  f_equal.
  - change 8 with (2 ^ 3). change 16 with (2 ^ 4). change 256 with (2 ^ 8).
    apply N.bits_inj. intros i. destruct (N.lt_ge_cases i 4).
    + rewrite !N.mod_pow2_bits_low, !N.div_pow2_bits by assumption. apply N.mod_pow2_bits_low. lia.
    + rewrite !N.mod_pow2_bits_high by assumption. reflexivity.
  - rewrite N.div_div by lia. reflexivity.
Qed.
