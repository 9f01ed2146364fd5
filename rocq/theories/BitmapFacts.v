(** * Lemmas about the type bitmaps. *)
From Verif Require Import Base Buffer Types Bitmap BaseFacts BufferFacts.
From Coq Require Import Lia ZifyBool ZifyNat ZifyN Sorted.
Ltac Zify.zify_post_hook ::= Z.div_mod_to_equations.

Lemma rtype_code_range t : 1 <= rtype_code t <= 257.
Proof. destruct t; cbn; lia. Qed.

Lemma rtype_code_inj t t' : rtype_code t = rtype_code t' -> t = t'.
Proof. destruct t, t'; cbn; intros E; try reflexivity; discriminate E. Qed.

(** ** Strictly increasing lists of numbers *)
Fixpoint incr (l : list N) : Prop :=
  match l with [] => True | x :: l' => Forall (fun y => x < y) l' /\ incr l' end.

Lemma sorted_by_incr {X} (key : X -> N) s : sorted_by key s <-> incr (map key s).
Proof.
  induction s as [|x s IH]; cbn; [tauto|]. rewrite IH, Forall_map. tauto.
Qed.

Lemma incr_app a b : incr (a ++ b) <-> incr a /\ incr b /\ Forall (fun x => Forall (fun y => x < y) b) a.
Proof.
  induction a as [|x a IH]; cbn; [intuition|]. rewrite Forall_app, IH, Forall_cons_iff. intuition.
Qed.

Lemma incr_ext a : forall b, incr a -> incr b -> (forall x, In x a <-> In x b) -> a = b.
Proof.
  induction a as [|x a IH]; intros [|y b] Ha Hb H.
  - reflexivity.
  - exfalso. apply (H y). left; reflexivity.
  - exfalso. apply (H x). left; reflexivity.
  - cbn in Ha, Hb. destruct Ha as [Ha1 Ha2], Hb as [Hb1 Hb2].
    rewrite Forall_forall in Ha1, Hb1.
    assert (x = y).
    { destruct (proj1 (H x) (or_introl eq_refl)) as [|Hx]; [auto|].
      destruct (proj2 (H y) (or_introl eq_refl)) as [|Hy]; [auto|].
      apply Hb1 in Hx. apply Ha1 in Hy. lia. }
    subst y. f_equal. apply IH; [assumption|assumption|].
    intros z. split; intros Hz.
    + destruct (proj1 (H z) (or_intror Hz)) as [<-|]; [|assumption]. apply Ha1 in Hz. lia.
    + destruct (proj2 (H z) (or_intror Hz)) as [<-|]; [|assumption]. apply Hb1 in Hz. lia.
Qed.

(** ** Bits of a block *)
Definition bit_at (block : bytes) (p : N) : bool :=
  N.testbit (nth (N.to_nat (p / 8)) block 0) (7 - p mod 8).

Lemma land_128 x : (N.land x 128 =? 0) = negb (N.testbit x 7).
Proof.
  destruct (N.testbit x 7) eqn:E; cbn [negb].
  - apply N.eqb_neq. intros H. assert (N.testbit (N.land x 128) 7 = false) by (rewrite H; apply N.bits_0).
    rewrite N.land_spec, E in H0. discriminate.
  - apply N.eqb_eq. apply N.bits_inj_0. intros i. rewrite N.land_spec.
    change 128 with (2 ^ 7). rewrite N.pow2_bits_eqb. destruct (N.eqb_spec 7 i); [subst; rewrite E|apply andb_false_r].
    reflexivity.
Qed.

Lemma bit_is_set_spec o i : i < 8 -> bit_is_set o i = N.testbit o (7 - i).
Proof.
  intros H. unfold bit_is_set. rewrite land_128, negb_involutive. unfold u8.
  change 256 with (2 ^ 8). rewrite N.mod_pow2_bits_low by lia.
  rewrite N.shiftl_spec_high' by lia. reflexivity.
Qed.

Lemma shiftr_128 k j : k < 8 -> j < 8 -> N.testbit (N.shiftr 128 k) (7 - j) = (k =? j).
Proof.
  intros Hk Hj. rewrite N.shiftr_spec by lia. change 128 with (2 ^ 7). rewrite N.pow2_bits_eqb.
  destruct (N.eqb_spec 7 (7 - j + k)), (N.eqb_spec k j); lia.
Qed.

Lemma set_nth_length l i x : length (set_nth l i x) = length l.
Proof. revert i; induction l; intros [|i]; cbn; auto. Qed.

Lemma nth_set_nth l i x j : (i < length l)%nat ->
  nth j (set_nth l i x) 0 = if (i =? j)%nat then x else nth j l 0.
Proof.
  revert i j; induction l as [|y l IH]; intros [|i] [|j] H; cbn in *; try lia; try reflexivity.
  rewrite IH by lia. reflexivity.
Qed.

(** The block after noting type number [rt]. *)
Definition add_bit (block : bytes) (rt : N) : bytes :=
  let i := N.to_nat (rt / 8 mod 32) in
  set_nth block i (N.lor (nth i block 0) (N.shiftr 128 (rt mod 8))).

Lemma add_bit_length block rt : length (add_bit block rt) = length block.
Proof. apply set_nth_length. Qed.

Lemma bit_at_add block rt p : length block = 32%nat -> p < 256 ->
  bit_at (add_bit block rt) p = (bit_at block p || (rt mod 256 =? p)).
Proof.
  intros HL Hp. unfold bit_at, add_bit. rewrite nth_set_nth by lia.
  destruct (Nat.eqb_spec (N.to_nat (rt / 8 mod 32)) (N.to_nat (p / 8))) as [E|E].
  - rewrite E. rewrite N.lor_spec, shiftr_128 by (apply N.mod_lt; lia). f_equal.
    destruct (N.eqb_spec (rt mod 8) (p mod 8)), (N.eqb_spec (rt mod 256) p); lia.
  - destruct (N.eqb_spec (rt mod 256) p); [lia|]. rewrite orb_false_r. reflexivity.
Qed.

Definition block_of (l : list N) : bytes := fold_left add_bit l zero_block.

Lemma fold_add_length l : forall block, length (fold_left add_bit l block) = length block.
Proof. induction l; intros; cbn; [reflexivity|]. rewrite IHl. apply add_bit_length. Qed.

Lemma fold_add_bits l : forall block p, length block = 32%nat -> p < 256 ->
  bit_at (fold_left add_bit l block) p = (bit_at block p || existsb (fun rt => rt mod 256 =? p) l).
Proof.
  induction l as [|rt l IH]; intros block p HL Hp; cbn [fold_left existsb].
  - rewrite orb_false_r. reflexivity.
  - rewrite IH by (try rewrite add_bit_length; assumption). rewrite bit_at_add by assumption.
    rewrite orb_assoc. reflexivity.
Qed.

Lemma bit_at_zero p : bit_at zero_block p = false.
Proof.
  unfold bit_at, zero_block.
  assert (E : forall n k, nth k (repeat 0 n) 0 = 0).
  { induction n; intros [|k]; cbn; auto. }
  rewrite E. apply N.bits_0.
Qed.

Lemma block_of_bits l p : p < 256 -> bit_at (block_of l) p = existsb (fun rt => rt mod 256 =? p) l.
Proof. intros. unfold block_of. rewrite fold_add_bits, bit_at_zero by (try reflexivity; assumption). reflexivity. Qed.

Lemma block_of_length l : length (block_of l) = 32%nat.
Proof. unfold block_of. rewrite fold_add_length. reflexivity. Qed.

(** ** The encoder *)
Lemma set_type_bit_ok c rt bn block : bn <= 255 -> 256 * bn <= rt < 256 * bn + 256 ->
  length block = 32%nat ->
  set_type_bit c rt bn block = Ok (rt / 8 mod 32, add_bit block rt).
Proof.
  intros Hb Hr HL. unfold set_type_bit, umul, usub, M16.
  destruct (N.ltb_spec (32 * bn) 65536); [|lia]. cbn [rbind].
  destruct (N.leb_spec (32 * bn) (rt / 8)); [|lia]. cbn [rbind].
  assert (E : u8 (rt / 8 - 32 * bn) = rt / 8 mod 32) by (unfold u8; lia).
  rewrite E. unfold add_bit.
  destruct (nth_error block (N.to_nat (rt / 8 mod 32))) as [x|] eqn:En.
  - rewrite (nth_error_nth _ _ 0 En). reflexivity.
  - apply nth_error_None in En. lia.
Qed.

Definition last_index (l : list N) : N := last l 0 / 8 mod 32.

(** One window as it appears on the wire, for the type numbers [l]. *)
Definition window (w : N) (l : list N) : bytes :=
  [w; last_index l + 1] ++ firstn (S (N.to_nat (last_index l))) (block_of l).

Lemma flush_ok c bn bl block : bn <= 255 -> bl < 32 -> length block = 32%nat ->
  flush_block c bn bl block = Ok ([bn; bl + 1] ++ firstn (S (N.to_nat bl)) block).
Proof.
  intros Hb Hl HL. unfold flush_block, uadd, M8.
  destruct (N.ltb_spec (bl + 1) 256); [|lia]. cbn [rbind].
  destruct (Nat.leb_spec (length block) (N.to_nat bl)); [lia|].
  unfold u8. rewrite N.mod_small by lia. reflexivity.
Qed.

Lemma types_enc_same c bn : bn <= 255 -> forall ts rest bl block, length block = 32%nat -> bl < 32 ->
  Forall (fun t => 256 * bn <= rtype_code t < 256 * bn + 256 /\ rtype_code t <= 32 * bn + 255) ts ->
  types_enc c (ts ++ rest) bn bl block =
  types_enc c rest bn (match ts with [] => bl | _ => last_index (map rtype_code ts) end)
            (fold_left add_bit (map rtype_code ts) block).
Proof.
  intros Hbn. induction ts as [|t ts IH]; intros rest bl block HL Hbl HF; [reflexivity|].
  inversion HF as [|? ? [H1 H2] HF']; subst. cbn [app types_enc map fold_left].
  unfold umul at 1, usub at 1, M16.
  destruct (N.ltb_spec (bn * 32) 65536); [|lia]. cbn [rbind].
  destruct (N.leb_spec (bn * 32) (rtype_code t)); [|lia]. cbn [rbind].
  destruct (N.ltb_spec 255 (rtype_code t - bn * 32)); [lia|].
  rewrite set_type_bit_ok by assumption. cbn [rbind fst snd].
  rewrite IH; [|rewrite add_bit_length; assumption|apply N.mod_lt; lia|assumption].
  f_equal. destruct ts as [|t' ts]; reflexivity.
Qed.

Lemma sorted_split ts : sorted_by rtype_code ts ->
  exists lo hi, ts = lo ++ hi /\ Forall (fun t => rtype_code t <= 255) lo /\
                Forall (fun t => 256 <= rtype_code t <= 257) hi.
Proof.
  induction ts as [|t ts IH]; intros H.
  - exists [], []. auto.
  - cbn in H. destruct H as [H1 H2]. destruct (IH H2) as [lo [hi [-> [Hlo Hhi]]]].
    destruct (N.leb_spec (rtype_code t) 255).
    + exists (t :: lo), hi. auto.
    + exists [], (t :: lo ++ hi). split; [reflexivity|]. split; [constructor|].
      constructor; [pose proof (rtype_code_range t); lia|].
      eapply Forall_impl; [|exact H1]. cbn. intros t' Ht. pose proof (rtype_code_range t'). lia.
Qed.

(** What the encoder writes: window 0, then window 1 if there is a type above 255. *)
Lemma types_to_bytes_eq c lo hi :
  Forall (fun t => rtype_code t <= 255) lo -> Forall (fun t => 256 <= rtype_code t <= 257) hi ->
  types_to_bytes c (lo ++ hi) =
  Ok (window 0 (map rtype_code lo) ++ match hi with [] => [] | _ => window 1 (map rtype_code hi) end).
Proof.
  intros Hlo Hhi. unfold types_to_bytes.
  rewrite types_enc_same; try reflexivity; try lia.
  2:{ eapply Forall_impl; [|exact Hlo]. cbn; intros; lia. }
  assert (Eb : match lo with [] => 0 | _ => last_index (map rtype_code lo) end
               = last_index (map rtype_code lo)) by (destruct lo; reflexivity).
  rewrite Eb. clear Eb. fold (block_of (map rtype_code lo)).
  assert (L32 : last_index (map rtype_code lo) < 32) by (apply N.mod_lt; lia).
  destruct hi as [|t hi].
  - cbn [types_enc]. rewrite flush_ok by (try apply block_of_length; lia).
    unfold window. rewrite app_nil_r. reflexivity.
  - inversion Hhi as [|? ? Ht Hhi']; subst. cbn [types_enc].
    unfold umul at 1, usub at 1, M16. cbn [N.mul].
    destruct (N.ltb_spec 0 65536); [|lia]. cbn [rbind].
    destruct (N.leb_spec 0 (rtype_code t)); [|lia]. cbn [rbind].
    destruct (N.ltb_spec 255 (rtype_code t - 0)); [|lia].
    rewrite flush_ok by (try apply block_of_length; lia). cbn [rbind].
    unfold uadd at 1. change (0 + 1 <? 65536) with true. cbn [rbind].
    change (0 + 1) with 1.
    rewrite set_type_bit_ok by (try reflexivity; lia). cbn [rbind fst snd].
    pose proof (types_enc_same c 1 ltac:(lia) hi [] (rtype_code t / 8 mod 32) (add_bit zero_block (rtype_code t))) as E.
    rewrite app_nil_r in E. rewrite E; clear E.
    + cbn [types_enc].
      assert (Eb : match hi with [] => rtype_code t / 8 mod 32 | _ => last_index (map rtype_code hi) end
                   = last_index (map rtype_code (t :: hi))) by (destruct hi; reflexivity).
      rewrite Eb. change (fold_left add_bit (map rtype_code hi) (add_bit zero_block (rtype_code t)))
        with (block_of (map rtype_code (t :: hi))).
      rewrite flush_ok; [reflexivity|lia|apply N.mod_lt; lia|apply block_of_length].
    + rewrite add_bit_length. reflexivity.
    + apply N.mod_lt; lia.
    + eapply Forall_impl; [|exact Hhi']. cbn; intros; lia.
Qed.

(** ** The size computation *)
Lemma window_length w l : length (window w l) = (2 + (N.to_nat (last_index l) + 1))%nat.
Proof.
  unfold window. rewrite app_length, firstn_length, block_of_length. cbn [length].
  assert (last_index l < 32) by (apply N.mod_lt; lia). lia.
Qed.

Lemma block_size_ok c bn last : bn <= 255 ->
  256 * bn <= match last with Some r => r | None => 0 end < 256 * bn + 256 ->
  block_size c bn last =
  Ok (2 + (N.to_nat (match last with Some r => r | None => 0 end / 8 mod 32) + 1))%nat.
Proof.
  intros Hb Hr. unfold block_size, umul, usub, M16.
  destruct (N.ltb_spec (32 * bn) 65536); [|lia]. cbn [rbind].
  destruct (N.leb_spec (32 * bn) (match last with Some r => r | None => 0 end / 8)); [|lia]. cbn [rbind].
  do 4 f_equal. lia.
Qed.

Lemma types_size_same c bn : bn <= 255 -> forall ts rest last0,
  Forall (fun t => 256 * bn <= rtype_code t <= 32 * bn + 255) ts ->
  types_size c (ts ++ rest) bn last0 =
  types_size c rest bn (match ts with [] => last0 | _ => Some (last (map rtype_code ts) 0) end).
Proof.
  intros Hbn. induction ts as [|t ts IH]; intros rest last0 HF; [reflexivity|].
  inversion HF; subst. cbn [app types_size map].
  unfold umul at 1, usub at 1, M16.
  destruct (N.ltb_spec (bn * 32) 65536); [|lia]. cbn [rbind].
  destruct (N.leb_spec (bn * 32) (rtype_code t)); [|lia]. cbn [rbind].
  destruct (N.ltb_spec 255 (rtype_code t - bn * 32)); [lia|].
  rewrite IH by assumption. f_equal. destruct ts; reflexivity.
Qed.

Lemma last_in {X} (Q : X -> Prop) l d : Q d -> Forall Q l -> Q (last l d).
Proof. intros Hd. induction 1 as [|x l Hx Hl IH]; [assumption|]. destruct l; [assumption|]. exact IH. Qed.

Lemma last_cons {X} (l : list X) : forall n d, last (n :: l) d = last l n.
Proof. induction l as [|a l IH]; intros n d; [reflexivity|].
  change (last (n :: a :: l) d) with (last (a :: l) d). rewrite !IH. destruct l; reflexivity. Qed.

Lemma types_byte_size_eq c lo hi :
  Forall (fun t => rtype_code t <= 255) lo -> Forall (fun t => 256 <= rtype_code t <= 257) hi ->
  types_byte_size c (lo ++ hi) =
  Ok (length (window 0 (map rtype_code lo) ++ match hi with [] => [] | _ => window 1 (map rtype_code hi) end)).
Proof.
  intros Hlo Hhi. unfold types_byte_size.
  rewrite types_size_same; try lia.
  2:{ eapply Forall_impl; [|exact Hlo]. cbn; intros; lia. }
  assert (Hlast : last (map rtype_code lo) 0 <= 255).
  { apply last_in with (Q := fun x => x <= 255); [lia|]. rewrite Forall_map. exact Hlo. }
  set (lst := match lo with [] => None | _ => Some (last (map rtype_code lo) 0) end).
  assert (El : match lst with Some r => r | None => 0 end = last (map rtype_code lo) 0)
    by (subst lst; destruct lo; reflexivity).
  destruct hi as [|t hi].
  - cbn [types_size]. rewrite block_size_ok by (rewrite ?El; lia). rewrite El.
    rewrite app_nil_r, window_length. reflexivity.
  - inversion Hhi as [|? ? Ht Hhi']; subst. cbn [types_size].
    unfold umul at 1, usub at 1, M16. cbn [N.mul].
    destruct (N.ltb_spec 0 65536); [|lia]. cbn [rbind].
    destruct (N.leb_spec 0 (rtype_code t)); [|lia]. cbn [rbind].
    destruct (N.ltb_spec 255 (rtype_code t - 0)); [|lia].
    rewrite block_size_ok by (rewrite ?El; lia). rewrite El. cbn [rbind].
    unfold uadd at 1. change (0 + 1 <? 65536) with true. cbn [rbind].
    change (0 + 1) with 1.
    pose proof (types_size_same c 1 ltac:(lia) hi [] (Some (rtype_code t))) as E.
    rewrite app_nil_r in E. rewrite E; clear E.
    + cbn [types_size].
      assert (Eb : match hi with [] => Some (rtype_code t) | _ => Some (last (map rtype_code hi) 0) end
                   = Some (last (map rtype_code (t :: hi)) 0)) by (destruct hi; reflexivity).
      rewrite Eb.
      assert (Hl2 : 256 <= last (map rtype_code (t :: hi)) 0 <= 257).
      { change (map rtype_code (t :: hi)) with (rtype_code t :: map rtype_code hi).
        rewrite last_cons. apply last_in with (Q := fun x => 256 <= x <= 257); [assumption|].
        rewrite Forall_map. exact Hhi'. }
      rewrite block_size_ok by lia. cbn [rbind]. f_equal.
      rewrite app_length, !window_length. reflexivity.
    + eapply Forall_impl; [|exact Hhi']. cbn; intros; lia.
Qed.

(** ** The decoder *)
Definition octet_positions (index o : N) : list N :=
  map (fun i => 8 * index + i) (filter (bit_is_set o) [0; 1; 2; 3; 4; 5; 6; 7]).
Fixpoint positions (index : N) (bm : bytes) : list N :=
  match bm with [] => [] | o :: bm' => octet_positions index o ++ positions (index + 1) bm' end.

Definition insert_code (c : cfg) (w : N) (acc : tset) (p : N) : res tset :=
  let! t := rtype_try_from c (256 * w + p) in Ok (set_insert rtype_code t acc).

Lemma rfold_app {X Y} (f : X -> Y -> res X) l1 l2 a :
  rfold f (l1 ++ l2) a = rbind (rfold f l1 a) (rfold f l2).
Proof.
  revert a; induction l1 as [|y l1 IH]; intros a; cbn [app rfold]; [reflexivity|].
  destruct (f a y); cbn [rbind]; auto.
Qed.

Lemma octet_types_eq c w index o acc : 256 * w + 8 * index + 7 < 65536 -> index < 65536 ->
  octet_types c w index o acc = rfold (insert_code c w) (octet_positions index o) acc.
Proof.
  intros H Hi. unfold octet_types, octet_positions.
  match goal with |- rfold ?f _ _ = _ => set (body := f) end.
  assert (HB : forall acc i, i <= 7 -> body acc i =
            if bit_is_set o i then insert_code c w acc (8 * index + i) else Ok acc).
  { intros a i Hi7. unfold body, insert_code. destruct (bit_is_set o i); [|reflexivity].
    unfold umul, uadd, u16, M16.
    rewrite (N.mod_small index) by assumption.
    destruct (N.ltb_spec (256 * w) 65536); [|lia]. cbn [rbind].
    destruct (N.ltb_spec (8 * index) 65536); [|lia]. cbn [rbind].
    destruct (N.ltb_spec (256 * w + 8 * index) 65536); [|lia]. cbn [rbind].
    destruct (N.ltb_spec (256 * w + 8 * index + i) 65536); [|lia]. cbn [rbind].
    rewrite <- N.add_assoc. reflexivity. }
  clearbody body.
  assert (HF : Forall (fun i => i <= 7) [0; 1; 2; 3; 4; 5; 6; 7]) by (repeat constructor; lia).
  revert acc. induction HF as [|i l Hi7 HF IH]; intros acc; [reflexivity|].
  cbn [rfold filter map]. rewrite HB by assumption. destruct (bit_is_set o i).
  - cbn [map rfold]. destruct (insert_code c w acc (8 * index + i)); cbn [rbind]; auto.
  - cbn [rbind]. apply IH.
Qed.

Lemma bitmap_types_eq c w bm : forall index acc,
  256 * w + 8 * (index + N.of_nat (length bm)) <= 65536 ->
  bitmap_types c w index bm acc = rfold (insert_code c w) (positions index bm) acc.
Proof.
  induction bm as [|o bm IH]; intros index acc H; [reflexivity|].
  cbn [bitmap_types positions length] in *. rewrite rfold_app, octet_types_eq by lia.
  destruct (rfold (insert_code c w) (octet_positions index o) acc); cbn [rbind]; auto.
  apply IH. lia.
Qed.

Lemma octet_positions_in index o p :
  In p (octet_positions index o) <-> p / 8 = index /\ N.testbit o (7 - p mod 8) = true.
Proof.
  unfold octet_positions. rewrite in_map_iff. split.
  - intros [i [<- Hi]]. apply filter_In in Hi as [Hi Hb].
    assert (i < 8) by (cbn in Hi; intuition lia).
    rewrite bit_is_set_spec in Hb by assumption.
    assert (E1 : (8 * index + i) / 8 = index) by lia.
    assert (E2 : (8 * index + i) mod 8 = i) by lia.
    rewrite E1, E2. auto.
  - intros [<- Hb]. exists (p mod 8). split; [lia|]. apply filter_In. split.
    + assert (p mod 8 < 8) by (apply N.mod_lt; lia). set (i := p mod 8) in *. clearbody i.
      assert (i = 0 \/ i = 1 \/ i = 2 \/ i = 3 \/ i = 4 \/ i = 5 \/ i = 6 \/ i = 7) by lia.
      cbn. intuition auto.
    + rewrite bit_is_set_spec by (apply N.mod_lt; lia). assumption.
Qed.

Lemma positions_in bm : forall index p,
  In p (positions index bm) <->
  index <= p / 8 < index + N.of_nat (length bm) /\
  N.testbit (nth (N.to_nat (p / 8 - index)) bm 0) (7 - p mod 8) = true.
Proof.
  induction bm as [|o bm IH]; intros index p; cbn [positions length].
  - cbn [In]. split; [tauto|]. intros [H _]. lia.
  - rewrite in_app_iff, octet_positions_in, IH. split.
    + intros [[<- Hb]|[H Hb]].
      * split; [lia|]. rewrite N.sub_diag. exact Hb.
      * split; [lia|]. replace (N.to_nat (p / 8 - index)) with (S (N.to_nat (p / 8 - (index + 1)))) by lia.
        exact Hb.
    + intros [H Hb]. destruct (N.eqb_spec (p / 8) index) as [<-|].
      * left. rewrite N.sub_diag in Hb. auto.
      * right. split; [lia|].
        replace (N.to_nat (p / 8 - index)) with (S (N.to_nat (p / 8 - (index + 1)))) in Hb by lia.
        exact Hb.
Qed.

Lemma filter_incr f l : incr l -> incr (filter f l).
Proof.
  induction l as [|x l IH]; cbn; [tauto|]. intros [H1 H2]. destruct (f x); [|auto].
  cbn. split; [|auto]. rewrite Forall_forall in *. intros y Hy. apply filter_In in Hy. apply H1, Hy.
Qed.

Lemma octet_positions_incr index o : incr (octet_positions index o).
Proof.
  unfold octet_positions.
  assert (H : incr (filter (bit_is_set o) [0; 1; 2; 3; 4; 5; 6; 7])).
  { apply filter_incr. cbn. repeat split; repeat constructor. }
  induction (filter _ _) as [|x l IH]; cbn in *; [tauto|]. destruct H as [H1 H2]. split; [|auto].
  rewrite Forall_map. eapply Forall_impl; [|exact H1]. cbn; intros; lia.
Qed.

Lemma positions_incr bm : forall index, incr (positions index bm).
Proof.
  induction bm as [|o bm IH]; intros index; cbn [positions]; [exact I|].
  apply incr_app. split; [apply octet_positions_incr|]. split; [apply IH|].
  apply Forall_forall. intros x Hx. apply Forall_forall. intros y Hy.
  apply octet_positions_in in Hx as [Hx _]. apply positions_in in Hy as [Hy _]. lia.
Qed.

(** Inserting increasing types into a smaller set appends them. *)
Lemma rfold_insert c w : forall ps ts acc,
  Forall2 (fun p t => rtype_try_from c (256 * w + p) = Ok t) ps ts ->
  sorted_by rtype_code (acc ++ ts) ->
  rfold (insert_code c w) ps acc = Ok (acc ++ ts).
Proof.
  intros ps ts acc H. revert acc. induction H as [|p t ps ts Hp HF IH]; intros acc HS; cbn [rfold].
  - rewrite app_nil_r. reflexivity.
  - unfold insert_code at 1. rewrite Hp. cbn [rbind].
    rewrite set_insert_last.
    + replace (acc ++ t :: ts) with ((acc ++ [t]) ++ ts) in * by (rewrite <- app_assoc; reflexivity).
      apply IH, HS.
    + apply sorted_by_app in HS as [_ [_ HS]].
      eapply Forall_impl; [|exact HS]. cbn. intros a Ha. inversion Ha; assumption.
Qed.

(** The set bits of a window are exactly the numbers it was built from. *)
Lemma window_positions w codes :
  incr codes -> Forall (fun x => 256 * w <= x < 256 * w + 256) codes ->
  positions 0 (firstn (S (N.to_nat (last_index codes))) (block_of codes)) = map (fun x => x mod 256) codes.
Proof.
  intros HI HR. apply incr_ext.
  - apply positions_incr.
  - induction codes as [|x codes IH]; cbn; [exact I|]. cbn in HI. destruct HI as [H1 H2].
    inversion HR as [|? ? Hx HR']; subst. split.
    + rewrite Forall_map, Forall_forall in *. intros y Hy. specialize (H1 y Hy). specialize (HR' y Hy). lia.
    + apply IH; assumption.
  - intros p. rewrite positions_in, in_map_iff.
    assert (L32 : last_index codes < 32) by (apply N.mod_lt; lia).
    rewrite firstn_length, block_of_length, N.sub_0_r.
    assert (HLast : forall x, In x codes -> x / 8 mod 32 <= last_index codes).
    { intros x Hx. unfold last_index.
      assert (x <= last codes 0 < 256 * w + 256).
      { clear L32. revert x Hx. induction codes as [|y codes IH]; intros x Hx; [destruct Hx|].
        cbn in HI. destruct HI as [H1 H2]. inversion HR as [|? ? Hy HR']; subst.
        destruct codes as [|z codes].
        - cbn in *. intuition lia.
        - assert (Hz : last (y :: z :: codes) 0 = last (z :: codes) 0) by reflexivity. rewrite Hz.
          specialize (IH H2 HR'). destruct Hx as [->|Hx]; [|apply IH, Hx].
          specialize (IH z (or_introl eq_refl)). inversion H1; subst. lia. }
      assert (256 * w <= x) by (rewrite Forall_forall in HR; apply HR; assumption). lia. }
    assert (Hn : forall k, (k < S (N.to_nat (last_index codes)))%nat ->
              nth k (firstn (S (N.to_nat (last_index codes))) (block_of codes)) 0 = nth k (block_of codes) 0).
    { intros k Hk. rewrite <- (firstn_skipn (S (N.to_nat (last_index codes))) (block_of codes)) at 2.
      rewrite app_nth1; [reflexivity|]. rewrite firstn_length, block_of_length. lia. }
    split.
    + intros [Hp Hb]. rewrite Hn in Hb by lia.
      assert (p < 256) by lia.
      change (bit_at (block_of codes) p = true) in Hb. rewrite block_of_bits in Hb by assumption.
      apply existsb_exists in Hb as [x [Hx E]]. apply N.eqb_eq in E. eauto.
    + intros [x [<- Hx]]. specialize (HLast x Hx).
      assert (E8 : x mod 256 / 8 = x / 8 mod 32) by lia.
      rewrite E8. split; [lia|]. rewrite Hn by lia.
      rewrite <- E8. change (bit_at (block_of codes) (x mod 256) = true).
      rewrite block_of_bits by (apply N.mod_lt; lia). apply existsb_exists. exists x.
      split; [assumption|]. apply N.eqb_refl.
Qed.

(** A type that exists in the build and can be parsed back from its number. *)
Definition parseable (c : cfg) (t : rtype) : Prop := rtype_try_from c (rtype_code t) = Ok t.

Lemma reads_window c w ts acc pre suf : w <= 1 ->
  Forall (fun t => 256 * w <= rtype_code t < 256 * w + 256) ts ->
  Forall (parseable c) ts -> sorted_by rtype_code (acc ++ ts) ->
  reads pre suf (window_step c acc) (window w (map rtype_code ts)) (acc ++ ts).
Proof.
  intros Hw HR HP HS.
  set (codes := map rtype_code ts).
  assert (L32 : last_index codes < 32) by (apply N.mod_lt; lia).
  set (bm := firstn (S (N.to_nat (last_index codes))) (block_of codes)).
  assert (Lbm : length bm = S (N.to_nat (last_index codes)))
    by (unfold bm; rewrite firstn_length, block_of_length; lia).
  unfold window_step, window. fold bm.
  change ([w; last_index codes + 1] ++ bm) with ([w] ++ [last_index codes + 1] ++ bm).
  eapply reads_bind; [apply reads_u8; lia|].
  eapply reads_bind; [apply reads_u8; lia|].
  rewrite <- (app_nil_r bm) at 1.
  eapply reads_bind; [apply reads_bytes; lia|].
  unfold reads, lift. cbn [length]. rewrite Nat.add_0_r. f_equal.
  rewrite bitmap_types_eq by (rewrite Lbm; lia).
  unfold bm. rewrite (window_positions w).
  - apply rfold_insert; [|assumption]. unfold codes.
    clear - HR HP. induction ts as [|t ts IH]; cbn [map]; [constructor|].
    inversion HR as [|? ? Hr HR']; inversion HP as [|? ? Hp HP']; subst. constructor; [|apply IH; assumption].
    unfold parseable in Hp. replace (256 * w + rtype_code t mod 256) with (rtype_code t) by lia. assumption.
  - unfold codes. apply (sorted_by_incr rtype_code ts). apply sorted_by_app in HS. apply HS.
  - unfold codes. rewrite Forall_map. assumption.
Qed.

Lemma reads_types c ts bs pre : sorted_by rtype_code ts -> Forall (parseable c) ts ->
  types_to_bytes c ts = Ok bs -> reads pre [] (types_try_from c) bs ts.
Proof.
  intros HS HP E. destruct (sorted_split ts HS) as [lo [hi [-> [Hlo Hhi]]]].
  rewrite types_to_bytes_eq in E by assumption.
  match type of E with Ok ?x = _ => assert (Hbs : bs = x) by congruence end. subst bs. clear E.
  apply Forall_app in HP as [HPlo HPhi].
  unfold types_try_from.
  assert (HSlo : sorted_by rtype_code ([] ++ lo)) by (apply sorted_by_app in HS; tauto).
  set (ws := (0, lo) :: match hi with [] => [] | _ => [(1, hi)] end).
  assert (E : window 0 (map rtype_code lo) ++ match hi with [] => [] | _ => window 1 (map rtype_code hi) end
              = flat_map (fun p => window (fst p) (map rtype_code (snd p))) ws).
  { unfold ws. cbn [flat_map fst snd]. f_equal. destruct hi; [reflexivity|]. cbn [flat_map fst snd].
    rewrite app_nil_r. reflexivity. }
  rewrite E.
  assert (E2 : lo ++ hi = fold_left (fun acc p => acc ++ snd p) ws []).
  { unfold ws. cbn [fold_left snd app]. destruct hi; [rewrite app_nil_r|]; reflexivity. }
  rewrite E2.
  apply (reads_loop_map (window_step c) (fun p => window (fst p) (map rtype_code (snd p)))
           (fun acc p => acc ++ snd p)).
  intros done x rest pre' EW. split; [rewrite window_length; lia|]. intros suf.
  destruct done as [|d1 done].
  - cbn [app] in EW. inversion EW; subst. cbn [fold_left fst snd].
    apply reads_window; try assumption; [lia|].
    eapply Forall_impl; [|exact Hlo]. cbn; intros t Ht. pose proof (rtype_code_range t).
    lia.
  - unfold ws in EW. cbn [app] in EW. inversion EW; subst d1. destruct hi as [|t hi].
    + destruct done; discriminate.
    + destruct done; cbn [app] in H1; [|inversion H1; destruct done; discriminate].
      inversion H1; subst. cbn [fold_left fst snd app].
      apply reads_window; try assumption; [lia|].
      eapply Forall_impl; [|exact Hhi]. cbn; intros; lia.
Qed.

(** Encoding never fails and the size computation agrees with it. *)
Lemma types_bytes_size c ts : sorted_by rtype_code ts ->
  exists bs, types_to_bytes c ts = Ok bs /\ types_byte_size c ts = Ok (length bs).
Proof.
  intros HS. destruct (sorted_split ts HS) as [lo [hi [-> [Hlo Hhi]]]].
  rewrite types_to_bytes_eq, types_byte_size_eq by assumption. eauto.
Qed.
