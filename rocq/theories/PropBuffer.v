(** * Properties C01 - C04: the cursor *)
From Coq Require Import Lia ZifyBool ZifyNat ZifyN.
From Verif Require Import Base Utf8 Buffer Fqdn Types RDataBasic RData Packet BaseFacts BufferFacts BufferApi
  BufferApiFacts WindowFacts.

Definition ex_cfg : cfg := mkcfg true true true.
Definition ex_bytes : bytes := [3; 97; 98; 99; 0; 1; 2; 3; 4; 5].

(** ** C01 *)
Theorem C01_cursor_inside : forall (c : cfg) (d : bytes) (calls : list call) (b : ubuf),
  byte_list d -> N.of_nat (length d) <= ISIZE_MAX -> Forall call_bounded calls ->
  do_calls c calls (mkubuf d 0) = Some b ->
  udata b = d /\ u_position b <= N.of_nat (length d) /\
  u_remaining c b = Ok (N.of_nat (length d) - u_position b).
Proof.
  intros c d calls b HB HL HF E.
  destruct (calls_inv c calls (mkubuf d 0) b HB) as [D [I1 I2]]; try assumption.
  - split; [apply N.le_0_l|exact HL].
  - cbn in D. unfold u_position, u_remaining, ulen in *. rewrite D in *.
    split; [reflexivity|]. split; [assumption|]. apply usub_ok, I1.
Qed.
(** Only reading a name can panic or hang. *)
Theorem C01_calls_return : forall (c : cfg) (d : bytes) (calls : list call),
  byte_list d -> N.of_nat (length d) <= ISIZE_MAX -> Forall call_bounded calls -> ~ In ExtractFqdn calls ->
  exists b, do_calls c calls (mkubuf d 0) = Some b.
Proof.
  intros c d calls HB HL HF NF. apply calls_return; try assumption. split; [apply N.le_0_l|exact HL].
Qed.
Definition ex_calls : list call :=
  [ExtractFqdn; Advance 3; ExtractU16; ExtractU32; SetPosition 77; SetPosition 0; ExtractString; Peek 2].
Example C01_ex : byte_list ex_bytes /\ N.of_nat (length ex_bytes) <= ISIZE_MAX /\ Forall call_bounded ex_calls /\
  do_calls ex_cfg ex_calls (mkubuf ex_bytes 0) = Some (mkubuf ex_bytes 4).
Proof.
  split; [repeat constructor|]. split; [discriminate|]. split; [|reflexivity].
  repeat constructor; discriminate.
Qed.
Print Assumptions C01_cursor_inside.
Print Assumptions C01_calls_return.

(** ** C02 *)
Theorem C02_present : forall (c : cfg) (pre bs suf : bytes),
  N.of_nat (length (pre ++ bs ++ suf)) <= ISIZE_MAX ->
  let d := pre ++ bs ++ suf in let p := N.of_nat (length pre) in let n := N.of_nat (length bs) in
  u_extract_bytes c (mkubuf d p) n = (Ok bs, mkubuf d (p + n)) /\
  u_peek_bytes c (mkubuf d p) n = Ok bs /\
  u_advance c (mkubuf d p) n = (Ok tt, mkubuf d (p + n)) /\
  u_int c n (mkubuf d p) = (Ok (big_endian bs), mkubuf d (p + n)).
Proof. exact extract_present. Qed.
Theorem C02_absent : forall (c : cfg) (d : bytes) (p n : N),
  N.of_nat (length d) <= ISIZE_MAX -> p <= N.of_nat (length d) -> n <= ISIZE_MAX ->
  N.of_nat (length d) < p + n ->
  u_extract_bytes c (mkubuf d p) n = (Err LengthViolation, mkubuf d p) /\
  u_peek_bytes c (mkubuf d p) n = Err LengthViolation /\
  u_advance c (mkubuf d p) n = (Err LengthViolation, mkubuf d p) /\
  u_int c n (mkubuf d p) = (Err LengthViolation, mkubuf d p).
Proof. exact extract_absent. Qed.
(** The operations on natural numbers used in the rest of the development are the same functions. *)
Theorem C02_agreement : forall (c : cfg) (d : bytes) (p n : nat),
  (p <= length d)%nat -> N.of_nat (length d) <= ISIZE_MAX -> N.of_nat n <= ISIZE_MAX ->
  let b := mkbuf d p in let embed (b : buf) := mkubuf (data b) (N.of_nat (pos b)) in
  u_extract_bytes c (embed b) (N.of_nat n) = (fst (extract_bytes n b), embed (snd (extract_bytes n b))) /\
  u_advance c (embed b) (N.of_nat n) = (fst (advance n b), embed (snd (advance n b))) /\
  u_sub_buffer c (embed b) (N.of_nat n) = rmap embed (sub_buffer b n).
Proof.
  intros c d p n Hp HL Hn b embed.
  split; [|split]; [apply (agree_extract c b)|apply (agree_advance c b)|apply (agree_sub c b)]; assumption.
Qed.
(** The remaining calls agree too. *)
Theorem C02_agreement_others : forall (c : cfg) (d : bytes) (p n : nat),
  byte_list d -> (p <= length d)%nat -> N.of_nat (length d) <= ISIZE_MAX -> N.of_nat n <= ISIZE_MAX ->
  let b := mkbuf d p in let embed (b : buf) := mkubuf (data b) (N.of_nat (pos b)) in
  u_set_position (embed b) (N.of_nat n) = (fst (set_position n b), embed (snd (set_position n b))) /\
  u_peek_bytes c (embed b) (N.of_nat n) = fst (peek_bytes n b) /\
  u_int c 1 (embed b) = (fst (extract_u8 b), embed (snd (extract_u8 b))) /\
  u_int c 2 (embed b) = (fst (extract_u16 b), embed (snd (extract_u16 b))) /\
  u_int c 4 (embed b) = (fst (extract_u32 b), embed (snd (extract_u32 b))) /\
  u_char_string c (embed b) = (fst (extract_character_string b), embed (snd (extract_character_string b))) /\
  u_string c (embed b) = (fst (extract_string b), embed (snd (extract_string b))) /\
  u_fqdn (embed b) = (fst (extract_fqdn b), embed (snd (extract_fqdn b))).
Proof.
  intros c d p n B Hp HL Hn b embed.
  assert (I : forall k, N.of_nat k <= ISIZE_MAX -> u_extract_bytes c (embed b) (N.of_nat k) = (fst (extract_bytes k b), embed (snd (extract_bytes k b)))) by (intros k K; apply (agree_extract c b); assumption).
  assert (J : forall k, N.of_nat k <= ISIZE_MAX -> u_int c (N.of_nat k) (embed b) = (fst ((bs <- extract_bytes k ;; ret (unbe bs)) b), embed (snd ((bs <- extract_bytes k ;; ret (unbe bs)) b)))).
  { intros k K. unfold u_int. rewrite (I k K). unfold bind. destruct (extract_bytes k b) as [[x|e| |] b']; reflexivity. }
  assert (S : u_char_string c (embed b) = (fst (extract_character_string b), embed (snd (extract_character_string b)))).
  { unfold u_char_string. change 1 with (N.of_nat 1) at 1. rewrite (J 1%nat ltac:(unfold ISIZE_MAX; cbn; lia)). unfold extract_character_string, extract_u8. set (P := (bs <- extract_bytes 1 ;; ret (unbe bs))). unfold bind at 1 2.
    destruct (P b) as [[x|e| |] b'] eqn:E; cbn [fst snd]; try reflexivity. unfold P, bind in E. unfold b, extract_bytes in E. cbn [data pos] in E.
    destruct (Nat.ltb_spec (length d) (p + 1)); [discriminate|]. cbn [ret] in E. injection E as <- <-.
    assert (X : unbe (slice d p 1) < 256).
    { assert (W : byte_list (slice d p 1)) by (apply Forall_slice; exact B). pose proof (unbe_bound _ W) as U. rewrite slice_length in U by lia. exact U. }
    rewrite <- (N2Nat.id (unbe (slice d p 1))) at 1. rewrite (agree_extract c (mkbuf d (p + 1))); [reflexivity|unfold inv; cbn; lia|exact HL|unfold ISIZE_MAX in *; lia]. }
  split; [|split; [|split; [|split; [|split; [|split; [exact S|split]]]]]].
  - unfold u_set_position, set_position, ulen, b. cbn [embed udata data pos upos].
    destruct (N.ltb_spec (N.of_nat (length d)) (N.of_nat n)), (Nat.ltb_spec (length d) n); try lia; reflexivity.
  - rewrite u_peek_eq by (assumption || (apply (uinv_emb b); assumption)). unfold peek_bytes, ulen, b. cbn [embed udata upos data pos].
    destruct (Nat.ltb_spec (length d) (p + n)), (N.leb_spec (N.of_nat p + N.of_nat n) (N.of_nat (length d))); try lia; [reflexivity|]. cbn [fst]. rewrite !Nat2N.id. reflexivity.
  - apply (J 1%nat). unfold ISIZE_MAX. cbn. lia.
  - apply (J 2%nat). unfold ISIZE_MAX. cbn. lia.
  - apply (J 4%nat). unfold ISIZE_MAX. cbn. lia.
  - unfold u_string, extract_string. rewrite S. unfold bind. destruct (extract_character_string b) as [[x|e| |] b']; cbn [fst snd rbind]; try reflexivity. destruct (utf8_valid x); reflexivity.
  - unfold u_fqdn. cbn [embed udata upos]. unfold b. cbn [data pos]. rewrite Nat2N.id. destruct (extract_fqdn (mkbuf d p)) as [r b']. reflexivity.
Qed.
(** [set_position] goes to any place inside the buffer, from wherever the cursor stands: what is read next are the octets there.  It goes nowhere else. *)
Theorem C02_set_position : forall (c : cfg) (q : N) (pre bs suf : bytes), N.of_nat (length (pre ++ bs ++ suf)) <= ISIZE_MAX ->
  let d := pre ++ bs ++ suf in let p := N.of_nat (length pre) in let n := N.of_nat (length bs) in
  (exists b, u_set_position (mkubuf d q) p = (Ok tt, b) /\ u_position b = p /\ u_extract_bytes c b n = (Ok bs, mkubuf d (p + n))) /\
  (forall p', N.of_nat (length d) < p' -> u_set_position (mkubuf d q) p' = (Err LengthViolation, mkubuf d q)).
Proof.
  intros c q pre bs suf L d p n. split.
  - exists (mkubuf d p). split; [|split; [reflexivity|apply C02_present; exact L]].
    unfold u_set_position, ulen. cbn [udata]. destruct (N.ltb_spec (N.of_nat (length d)) p) as [H|H]; [|reflexivity]. unfold d, p in H. rewrite !app_length in H. lia.
  - intros p' H. unfold u_set_position, ulen. cbn [udata]. destruct (N.ltb_spec (N.of_nat (length d)) p'); [reflexivity|lia].
Qed.
Example C02_ex : u_int ex_cfg 4 (mkubuf ex_bytes 5) = (Ok 16909060, mkubuf ex_bytes 9) /\
  big_endian [1; 2; 3; 4] = 16909060 /\
  u_int ex_cfg 4 (mkubuf ex_bytes 7) = (Err LengthViolation, mkubuf ex_bytes 7).
Proof. repeat split. Qed.
Print Assumptions C02_present.
Print Assumptions C02_absent.
Print Assumptions C02_agreement.
Print Assumptions C02_agreement_others.
Print Assumptions C02_set_position.

(** ** C03: false as stated *)
(** With overflow checks every such call near [usize::MAX] panics. *)
Theorem C03_checked_panics_refuted : exists (c : cfg) (b : ubuf) (n : N), n < M64 /\ ovf c = true /\
  upos b <= ulen b /\
  fst (u_advance c b n) = Panic /\ u_sub_buffer c b n = Panic /\ u_peek_bytes c b n = Panic /\
  fst (u_extract_bytes c b n) = Panic.
Proof. exists (mkcfg true true true), (mkubuf ex_bytes 5), (M64 - 3). repeat split; discriminate. Qed.
(** Without them, [advance] moves the cursor backwards, [sub_buffer] yields a buffer whose position
    lies beyond its end and whose [remaining()] is about 2^64, and peek and extract panic. *)
Theorem C03_wrapping_refuted : exists (c : cfg) (b sb : ubuf) (n : N), n < M64 /\ ovf c = false /\
  upos b <= ulen b /\
  (exists b', u_advance c b n = (Ok tt, b') /\ upos b' < upos b) /\
  u_sub_buffer c b n = Ok sb /\ ulen sb < upos sb /\ u_remaining c sb = Ok (M64 - 3) /\
  u_peek_bytes c b n = Panic /\ fst (u_extract_bytes c b n) = Panic.
Proof.
  exists (mkcfg true true false), (mkubuf ex_bytes 5), (mkubuf [3; 97] 5), (M64 - 3).
  repeat split; try discriminate. exists (mkubuf ex_bytes 2). repeat split.
Qed.
(** Exactly as long as the position plus the argument fits 64 bits they behave, with or without overflow checks: *)
Theorem C03_fits_partial : forall (c : cfg) (b : ubuf) (n : N), upos b <= ulen b -> ulen b <= ISIZE_MAX -> upos b + n < M64 ->
  u_advance c b n = (if upos b + n <=? ulen b then (Ok tt, mkubuf (udata b) (upos b + n)) else (Err LengthViolation, b)) /\
  u_sub_buffer c b n = (if upos b + n <=? ulen b then Ok (mkubuf (firstn (N.to_nat (upos b + n)) (udata b)) (upos b)) else Err LengthViolation) /\
  u_peek_bytes c b n = (if upos b + n <=? ulen b then Ok (slice (udata b) (N.to_nat (upos b)) (N.to_nat n)) else Err LengthViolation) /\
  u_extract_bytes c b n = (if upos b + n <=? ulen b then (Ok (slice (udata b) (N.to_nat (upos b)) (N.to_nat n)), mkubuf (udata b) (upos b + n))
                           else (Err LengthViolation, b)).
Proof. intros c b n H1 H2. apply u_fits. split; assumption. Qed.
(** Beyond that they never do. *)
Theorem C03_overflows_partial : forall (c : cfg) (b : ubuf) (n : N), upos b <= ulen b -> ulen b <= ISIZE_MAX -> n < M64 -> M64 <= upos b + n ->
  if ovf c then u_advance c b n = (Panic, b) /\ u_sub_buffer c b n = Panic /\ u_peek_bytes c b n = Panic /\ u_extract_bytes c b n = (Panic, b)
  else let e := upos b + n - M64 in e < upos b /\ u_advance c b n = (Ok tt, mkubuf (udata b) e) /\ u_sub_buffer c b n = Ok (mkubuf (firstn (N.to_nat e) (udata b)) (upos b)) /\
       u_peek_bytes c b n = Panic /\ u_extract_bytes c b n = (Panic, mkubuf (udata b) e).
Proof. intros c b n H1 H2. apply u_overflows. split; assumption. Qed.
Example C03_ex : let b := mkubuf ex_bytes 5 in upos b <= ulen b /\ ulen b <= ISIZE_MAX /\ upos b + (M64 - 6) < M64 /\ M64 <= upos b + (M64 - 5).
Proof. repeat split; discriminate. Qed.
Theorem C03_sub_buffer_partial : forall (c : cfg) (b : ubuf) (n : N),
  upos b <= ulen b -> ulen b <= ISIZE_MAX -> n <= ISIZE_MAX ->
  u_sub_buffer c b n =
  if upos b + n <=? ulen b then Ok (mkubuf (firstn (N.to_nat (upos b + n)) (udata b)) (upos b))
  else Err LengthViolation.
Proof. intros c b n H1 H2 H3. apply u_sub_eq; [split; assumption|assumption]. Qed.
Print Assumptions C03_checked_panics_refuted.
Print Assumptions C03_wrapping_refuted.
Print Assumptions C03_fits_partial.
Print Assumptions C03_overflows_partial.
Print Assumptions C03_sub_buffer_partial.

(** ** C04 *)
(** Whatever parser runs on the record data: its outcome depends only on the octets before the end of
    the window. *)
Theorem C04_window : forall (A : Type) (p : P A) (len : nat) (d1 d2 : bytes) (q : nat),
  same_upto (q + len) d1 d2 ->
  fst (framed len p (mkbuf d1 q)) = fst (framed len p (mkbuf d2 q)) /\
  pos (snd (framed len p (mkbuf d1 q))) = pos (snd (framed len p (mkbuf d2 q))).
Proof. exact @framed_window. Qed.
(** A whole record, given that the owner name is the same. *)
Theorem C04_record : forall (c : cfg) (d1 d2 : bytes) (q : nat) (r : rr) (e : nat),
  rr_try_from c (mkbuf d1 q) = (Ok r, mkbuf d1 e) -> (q <= length d1)%nat -> same_upto e d1 d2 ->
  fst (extract_fqdn (mkbuf d1 q)) = fst (extract_fqdn (mkbuf d2 q)) /\
    pos (snd (extract_fqdn (mkbuf d1 q))) = pos (snd (extract_fqdn (mkbuf d2 q))) ->
  (q <= length d2)%nat ->
  rr_try_from c (mkbuf d2 q) = (Ok r, mkbuf d2 e).
Proof. exact rr_window. Qed.
(** Outside such a window a name is not confined: this one ends at 3 but depends on octet 4. *)
Theorem C04_outside_window : exists (d1 d2 : bytes) (q e : nat) (f1 f2 : fqdn),
  same_upto e d1 d2 /\ extract_fqdn (mkbuf d1 q) = (Ok f1, mkbuf d1 e) /\
  extract_fqdn (mkbuf d2 q) = (Ok f2, mkbuf d2 e) /\ f1 <> f2.
Proof.
  exists [2; 192; 0; 1; 97; 0], [2; 192; 0; 1; 98; 0], 1%nat, 3%nat, [[192; 0]; [97]], [[192; 0]; [98]].
  split; [|split; [reflexivity|split; [reflexivity|discriminate]]].
  split; [reflexivity|]. cbn. repeat constructor.
Qed.
(** An A record followed by two different continuations. *)
Definition ex_rr_bytes : bytes := [1; 97; 0; 0; 1; 0; 1; 0; 0; 0; 60; 0; 4; 127; 0; 0; 1].
Example C04_ex : rr_try_from ex_cfg (mkbuf (ex_rr_bytes ++ [9]) 0) =
    (Ok (mkRR [[97]] Types.A false CIN 60 (DA 2130706433)), mkbuf (ex_rr_bytes ++ [9]) 17) /\
  same_upto 17 (ex_rr_bytes ++ [9]) (ex_rr_bytes ++ [8; 7]) /\
  extract_fqdn (mkbuf (ex_rr_bytes ++ [8; 7]) 0) = (Ok [[97]], mkbuf (ex_rr_bytes ++ [8; 7]) 3).
Proof. split; [reflexivity|]. split; [|reflexivity]. split; [reflexivity|]. cbn. repeat constructor. Qed.
Print Assumptions C04_window.
Print Assumptions C04_record.
Print Assumptions C04_outside_window.
