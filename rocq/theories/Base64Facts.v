(** * Proofs about base64 *)
From Coq Require Import String Ascii Lia ZifyNat ZifyN ZifyBool.
From Verif Require Import Base BaseFacts Header Types RDataBasic Bitmap RDataSec Base64 Base64Spec.
Ltac Zify.zify_post_hook ::= Z.div_mod_to_equations.

Lemma bits_length w n : length (bits w n) = w.
Proof. induction w; cbn; congruence. Qed.
Lemma bits_low w k n m : (w <= k)%nat -> m < 2 ^ N.of_nat k -> bits w (n * 2 ^ N.of_nat k + m) = bits w m.
Proof.
  intros L M. induction w as [|w IH]; [reflexivity|]. cbn [bits]. rewrite IH by lia. f_equal.
  replace m with ((n * 2 ^ N.of_nat k + m) mod 2 ^ N.of_nat k) at 2.
  - rewrite N.mod_pow2_bits_low by lia. reflexivity.
  - rewrite N.add_comm, N.mod_add by (apply N.pow_nonzero; lia). apply N.mod_small, M.
Qed.
Lemma bits_app w k n m : m < 2 ^ N.of_nat k -> bits (w + k) (n * 2 ^ N.of_nat k + m) = (bits w n ++ bits k m)%list.
Proof.
  intros M. induction w as [|w IH]; cbn [Nat.add bits app]; [apply bits_low; [lia|exact M]|]. rewrite IH. f_equal.
  replace (N.of_nat (w + k)) with (N.of_nat w + N.of_nat k) by lia. rewrite <- N.div_pow2_bits. f_equal.
  rewrite N.div_add_l by (apply N.pow_nonzero; lia). rewrite N.div_small by exact M. lia.
Qed.
Lemma bits_zero k : bits k 0 = repeat false k.
Proof. induction k as [|k IH]; [reflexivity|]. cbn [bits repeat]. rewrite IH. reflexivity. Qed.
Lemma bits_testbit w n m : bits w n = bits w m -> forall i, i < N.of_nat w -> N.testbit n i = N.testbit m i.
Proof.
  induction w as [|w IH]; intros E i L; [lia|]. cbn [bits] in E. injection E as E1 E2. destruct (N.eq_dec i (N.of_nat w)) as [->|]; [exact E1|apply IH; [exact E2|lia]].
Qed.
Lemma bits_inj w n m : n < 2 ^ N.of_nat w -> m < 2 ^ N.of_nat w -> bits w n = bits w m -> n = m.
Proof.
  intros Ln Lm E. rewrite <- (N.mod_small n _ Ln), <- (N.mod_small m _ Lm). apply N.bits_inj. intros i. destruct (N.ltb_spec i (N.of_nat w)).
  - rewrite !N.mod_pow2_bits_low by assumption. apply (bits_testbit w); assumption.
  - rewrite !N.mod_pow2_bits_high by assumption. reflexivity.
Qed.
Lemma flat_bits_length w l : length (flat_map (bits w) l) = (w * length l)%nat.
Proof. induction l as [|x l IH]; cbn [flat_map length]; [lia|]. rewrite app_length, bits_length, IH. lia. Qed.
Lemma app_same_length {A} (a b x y : list A) : length a = length b -> (a ++ x = b ++ y)%list -> a = b /\ x = y.
Proof. revert b. induction a as [|u a IH]; intros [|v b] L E; try discriminate L; [auto|]. injection L as L. injection E as -> E. destruct (IH b L E) as [-> ->]. auto. Qed.
Lemma flat_bits_inj w l : Forall (fun n => n < 2 ^ N.of_nat w) l -> forall l', Forall (fun n => n < 2 ^ N.of_nat w) l' -> length l = length l' ->
  flat_map (bits w) l = flat_map (bits w) l' -> l = l'.
Proof.
  induction 1 as [|x l X F IH]; intros [|y l'] F' L E; try discriminate L; [reflexivity|]. apply Forall_cons_iff in F'. destruct F' as [Y F'].
  cbn [flat_map] in E. apply app_same_length in E; [|rewrite !bits_length; reflexivity]. destruct E as [E1 E2]. f_equal; [apply (bits_inj w); assumption|apply IH; [exact F'|injection L as L; exact L|exact E2]].
Qed.

(** ** The alphabet *)
Definition numbers (n : nat) : list N := map N.of_nat (seq 0 n).
Lemma below (P : N -> Prop) k : Forall P (numbers k) -> forall n, n < N.of_nat k -> P n.
Proof.
  intros F n L. rewrite Forall_forall in F. apply F. apply in_map_iff. exists (N.to_nat n). split; [lia|]. apply in_seq. lia.
Qed.
Lemma char_alphabet n : n < 64 -> b64_char n = nth (N.to_nat n) base64_alphabet 0.
Proof. apply (below (fun n => b64_char n = nth (N.to_nat n) base64_alphabet 0) 64). repeat constructor. Qed.
Definition digit_of (c : N) : N := if c <? 48 then (if c =? 43 then 62 else 63) else if c <? 65 then c + 4 else if c <? 97 then c - 65 else c - 71.
Lemma char_digit n : n < 64 -> digit_of (b64_char n) = n /\ b64_char n <> 61.
Proof. apply (below (fun n => digit_of (b64_char n) = n /\ b64_char n <> 61) 64). repeat (apply Forall_cons; [split; [reflexivity|discriminate]|]). apply Forall_nil. Qed.
Lemma map_alphabet l : Forall (fun n => n < 64) l -> map (fun n => nth (N.to_nat n) base64_alphabet 0) l = map b64_char l.
Proof. induction 1 as [|n l L F IH]; [reflexivity|]. cbn [map]. rewrite IH. f_equal. symmetry. apply char_alphabet, L. Qed.

Lemma by_three (P : bytes -> Prop) : P [] -> (forall a, P [a]) -> (forall a b, P [a; b]) -> (forall a b c r, P r -> P (a :: b :: c :: r)) -> forall l, P l.
Proof. intros P0 P1 P2 P3. fix F 1. intros [|a [|b [|c r]]]; [exact P0|apply P1|apply P2|apply P3, F]. Qed.

Lemma encode_text bs : byte_list bs -> base64_text bs (b64_encode bs).
Proof.
  assert (K : byte_list bs -> exists digits zeros pads, Forall (fun n => n < 64) digits /\ flat_map (bits 6) digits = (flat_map (bits 8) bs ++ repeat false zeros)%list /\
    (zeros < 6)%nat /\ b64_encode bs = (map b64_char digits ++ repeat 61 pads)%list /\ (length (b64_encode bs) mod 4 = 0)%nat /\ (pads < 4)%nat).
  2: { intros B. destruct (K B) as (ds & z & p & D & E & Z & T & M & Q). exists ds, z, p. rewrite map_alphabet by exact D. auto 6. }
  induction bs as [|a|a b|a b c r IH] using by_three; intros B.
  - exists [], 0%nat, 0%nat. repeat split; try constructor; lia.
  - unfold byte_list in B. rewrite Forall_cons_iff in B. destruct B as [A _]. exists [a / 4; a mod 4 * 16], 4%nat, 2%nat.
    split; [repeat constructor; lia|]. split; [|repeat split; try reflexivity; lia].
    cbn [flat_map]. rewrite !app_nil_r, <- bits_zero, <- !bits_app by (cbn; lia). cbn [Nat.add]. f_equal. change (2 ^ N.of_nat 6) with 64. change (2 ^ N.of_nat 4) with 16. lia.
  - unfold byte_list in B. rewrite !Forall_cons_iff in B. destruct B as (A & C & _). exists [a / 4; a mod 4 * 16 + b / 16; b mod 16 * 4], 2%nat, 1%nat.
    split; [repeat constructor; lia|]. split; [|repeat split; try reflexivity; lia].
    cbn [flat_map]. rewrite !app_nil_r, <- app_assoc, <- bits_zero. rewrite <- (bits_app 8 2 b 0) by (cbn; lia). rewrite <- (bits_app 6 6 _ (b mod 16 * 4)) by (cbn; lia).
    rewrite <- !bits_app by (cbn [Nat.add]; change (2 ^ N.of_nat 12) with 4096; change (2 ^ N.of_nat 10) with 1024; change (2 ^ N.of_nat 6) with 64; change (2 ^ N.of_nat 2) with 4; lia). cbn [Nat.add]. f_equal.
    change (2 ^ N.of_nat 12) with 4096. change (2 ^ N.of_nat 10) with 1024. change (2 ^ N.of_nat 6) with 64. change (2 ^ N.of_nat 2) with 4. lia.
  - unfold byte_list in B. rewrite !Forall_cons_iff in B. destruct B as (A & C & D & B). destruct (IH B) as (ds & z & p & F & E & Z & T & M & Q).
    exists (a / 4 :: (a mod 4 * 16 + b / 16) :: (b mod 16 * 4 + c / 64) :: c mod 64 :: ds), z, p.
    split; [repeat constructor; try assumption; lia|]. split; [|split; [exact Z|split; [cbn [b64_encode map app]; rewrite T; reflexivity|split; [|exact Q]]]].
    + cbn [flat_map]. rewrite E, !app_assoc. f_equal. f_equal.
      change (2 ^ 6) with 64. rewrite <- (bits_app 6 6 _ _) by (cbn; lia). rewrite <- (bits_app 12 6 _ _) by (cbn; lia). rewrite <- (bits_app 18 6 _ _) by (cbn; lia).
      rewrite <- (bits_app 8 8 _ _) by (cbn; lia). rewrite <- (bits_app 16 8 _ _) by (cbn; lia). cbn [Nat.add]. f_equal.
      change (2 ^ N.of_nat 6) with 64. change (2 ^ N.of_nat 8) with 256. lia.
    + cbn [b64_encode length]. lia.
Qed.

Lemma text_parts l l' p p' : Forall (fun n => n < 64) l -> Forall (fun n => n < 64) l' -> (map b64_char l ++ repeat 61 p = map b64_char l' ++ repeat 61 p')%list -> l = l'.
Proof.
  intros F. revert l'. induction F as [|n l L F IH]; intros [|m l'] F' E; cbn [map app] in E; [reflexivity| | |].
  - apply Forall_cons_iff in F'. destruct F' as [M _]. destruct p; cbn in E; [discriminate|]. injection E as E _. destruct (char_digit m M) as [_ X]. congruence.
  - destruct p'; cbn in E; [discriminate|]. injection E as E _. destruct (char_digit n L) as [_ X]. congruence.
  - apply Forall_cons_iff in F'. destruct F' as [M F']. injection E as E1 E2. f_equal; [|apply IH; assumption].
    rewrite <- (proj1 (char_digit n L)), <- (proj1 (char_digit m M)), E1. reflexivity.
Qed.
Lemma text_unique bs t t' : base64_text bs t -> base64_text bs t' -> t = t'.
Proof.
  intros (ds & z & p & D & E & Z & T & M & Q) (ds' & z' & p' & D' & E' & Z' & T' & M' & Q').
  assert (L : length ds = length ds' /\ z = z').
  { apply (f_equal (@length bool)) in E, E'. rewrite app_length, !flat_bits_length, repeat_length in *. lia. }
  destruct L as [L <-]. assert (ds = ds') as <-.
  { apply (flat_bits_inj 6); [exact D|exact D'|exact L|congruence]. }
  subst. rewrite !app_length, !map_length, !repeat_length in *. replace p' with p by lia. reflexivity.
Qed.
Lemma text_injective bs bs' t : byte_list bs -> byte_list bs' -> base64_text bs t -> base64_text bs' t -> bs = bs'.
Proof.
  intros B B' (ds & z & p & D & E & Z & T & M & Q) (ds' & z' & p' & D' & E' & Z' & T' & M' & Q').
  rewrite (map_alphabet _ D) in T. rewrite (map_alphabet _ D') in T'. change pad_character with 61 in T, T'. assert (ds = ds') as <- by (apply (text_parts ds ds' p p' D D'); congruence).
  rewrite E in E'. assert (L : length bs = length bs' /\ z = z').
  { pose proof (f_equal (@length bool) E') as X. rewrite !app_length, !flat_bits_length, !repeat_length in X. lia. }
  destruct L as [L <-]. apply app_same_length in E'; [|rewrite !flat_bits_length; lia]. apply (flat_bits_inj 8); [exact B|exact B'|exact L|apply E'].
Qed.
Lemma encode_exact bs t : byte_list bs -> t = b64_encode bs <-> base64_text bs t.
Proof. intros B. split; [intros ->; apply encode_text, B|intros H; apply (text_unique bs); [exact H|apply encode_text, B]]. Qed.
Lemma encode_length bs : length (b64_encode bs) = (4 * ((length bs + 2) / 3))%nat.
Proof.
  induction bs as [|a|a b|a b c r IH] using by_three; try reflexivity. cbn [b64_encode length]. rewrite IH. lia.
Qed.
