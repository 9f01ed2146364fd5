(** * The [usize] cursor: histories of calls, agreement with Buffer.v. *)
From Verif Require Import Base Utf8 Buffer BaseFacts BufferFacts FqdnLoop BufferApi.
From Coq Require Import Lia ZifyBool ZifyNat ZifyN.

Definition uinv (b : ubuf) : Prop := upos b <= ulen b /\ ulen b <= ISIZE_MAX.

Lemma uadd_small c a b : a <= ISIZE_MAX -> b <= ISIZE_MAX -> uadd c M64 a b = Ok (a + b).
Proof. unfold uadd, ISIZE_MAX, M64. intros. destruct (N.ltb_spec (a + b) 18446744073709551616); [reflexivity|lia]. Qed.

Lemma usub_ok c m a b : b <= a -> usub c m a b = Ok (a - b).
Proof. unfold usub. intros. destruct (N.leb_spec b a); [reflexivity|lia]. Qed.

Lemma index_range_ok d from to : from <= to -> to <= N.of_nat (length d) ->
  index_range d from to = Ok (slice d (N.to_nat from) (N.to_nat (to - from))).
Proof. intros. unfold index_range. destruct (N.leb_spec from to), (N.leb_spec to (N.of_nat (length d))); reflexivity || lia. Qed.

(** Exact behaviour of each call. *)
Lemma u_advance_eq c b n : uinv b -> n <= ISIZE_MAX ->
  u_advance c b n = if upos b + n <=? ulen b then (Ok tt, mkubuf (udata b) (upos b + n)) else (Err LengthViolation, b).
Proof.
  intros [I1 I2] H. unfold u_advance. rewrite uadd_small by lia. rewrite (N.add_comm n).
  destruct (N.ltb_spec (ulen b) (upos b + n)), (N.leb_spec (upos b + n) (ulen b)); reflexivity || lia.
Qed.

Lemma u_extract_eq c b n : uinv b -> n <= ISIZE_MAX ->
  u_extract_bytes c b n =
  if upos b + n <=? ulen b
  then (Ok (slice (udata b) (N.to_nat (upos b)) (N.to_nat n)), mkubuf (udata b) (upos b + n))
  else (Err LengthViolation, b).
Proof.
  intros [I1 I2] H. unfold u_extract_bytes. rewrite uadd_small by lia.
  destruct (N.ltb_spec (ulen b) (upos b + n)), (N.leb_spec (upos b + n) (ulen b)); try reflexivity; try lia.
  rewrite usub_ok by lia. cbn [rbind]. rewrite index_range_ok; [|lia|unfold ulen in *; lia].
  replace (upos b + n - n) with (upos b) by lia. replace (upos b + n - upos b) with n by lia. reflexivity.
Qed.

Lemma u_peek_eq c b n : uinv b -> n <= ISIZE_MAX ->
  u_peek_bytes c b n =
  if upos b + n <=? ulen b then Ok (slice (udata b) (N.to_nat (upos b)) (N.to_nat n)) else Err LengthViolation.
Proof.
  intros [I1 I2] H. unfold u_peek_bytes. rewrite uadd_small by lia. cbn [rbind].
  destruct (N.ltb_spec (ulen b) (upos b + n)), (N.leb_spec (upos b + n) (ulen b)); try reflexivity; try lia.
  rewrite index_range_ok; [|lia|unfold ulen in *; lia].
  replace (upos b + n - upos b) with n by lia. reflexivity.
Qed.

Lemma u_sub_eq c b n : uinv b -> n <= ISIZE_MAX ->
  u_sub_buffer c b n =
  if upos b + n <=? ulen b then Ok (mkubuf (firstn (N.to_nat (upos b + n)) (udata b)) (upos b))
  else Err LengthViolation.
Proof.
  intros [I1 I2] H. unfold u_sub_buffer. rewrite uadd_small by lia. cbn [rbind]. rewrite (N.add_comm n).
  destruct (N.ltb_spec (ulen b) (upos b + n)), (N.leb_spec (upos b + n) (ulen b)); try reflexivity; try lia.
  rewrite index_range_ok; [|lia|unfold ulen in *; lia]. cbn [rbind]. unfold slice. cbn [skipn N.to_nat].
  rewrite N.sub_0_r. reflexivity.
Qed.

(** Agreement with Buffer.v. *)
Definition emb (b : buf) : ubuf := mkubuf (data b) (N.of_nat (pos b)).
Lemma uinv_emb b : inv b -> N.of_nat (length (data b)) <= ISIZE_MAX -> uinv (emb b).
Proof. unfold inv, uinv, emb, ulen; cbn. lia. Qed.

Lemma agree_advance c b n : inv b -> N.of_nat (length (data b)) <= ISIZE_MAX -> N.of_nat n <= ISIZE_MAX ->
  u_advance c (emb b) (N.of_nat n) = (fst (advance n b), emb (snd (advance n b))).
Proof.
  intros I L H. rewrite u_advance_eq by (assumption || apply uinv_emb; assumption).
  unfold advance, emb, ulen; cbn [udata upos].
  destruct (Nat.ltb_spec (length (data b)) (pos b + n)), (N.leb_spec (N.of_nat (pos b) + N.of_nat n) (N.of_nat (length (data b))));
    try lia; [reflexivity|]. cbn [fst snd data pos]. repeat f_equal. lia.
Qed.

Lemma agree_extract c b n : inv b -> N.of_nat (length (data b)) <= ISIZE_MAX -> N.of_nat n <= ISIZE_MAX ->
  u_extract_bytes c (emb b) (N.of_nat n) = (fst (extract_bytes n b), emb (snd (extract_bytes n b))).
Proof.
  intros I L H. rewrite u_extract_eq by (assumption || apply uinv_emb; assumption).
  unfold extract_bytes, emb, ulen; cbn [udata upos].
  destruct (Nat.ltb_spec (length (data b)) (pos b + n)), (N.leb_spec (N.of_nat (pos b) + N.of_nat n) (N.of_nat (length (data b))));
    try lia; [reflexivity|]. cbn [fst snd data pos]. rewrite !Nat2N.id. repeat f_equal. lia.
Qed.

Lemma agree_sub c b n : inv b -> N.of_nat (length (data b)) <= ISIZE_MAX -> N.of_nat n <= ISIZE_MAX ->
  u_sub_buffer c (emb b) (N.of_nat n) = rmap emb (sub_buffer b n).
Proof.
  intros I L H. rewrite u_sub_eq by (assumption || apply uinv_emb; assumption).
  unfold sub_buffer, emb, ulen; cbn [udata upos].
  destruct (Nat.ltb_spec (length (data b)) (pos b + n)), (N.leb_spec (N.of_nat (pos b) + N.of_nat n) (N.of_nat (length (data b))));
    try lia; [reflexivity|]. cbn. repeat f_equal. lia.
Qed.

(** ** Histories *)
Definition call_bounded (x : call) : Prop :=
  match x with Advance n | SetPosition n | Peek n | ExtractBytes n => n <= ISIZE_MAX | _ => True end.

Definition returned {A} (r : res A) : Prop := match r with Ok _ | Err _ => True | _ => False end.

Lemma extract_inv c b n r b' : uinv b -> n <= ISIZE_MAX -> u_extract_bytes c b n = (r, b') ->
  udata b' = udata b /\ uinv b' /\ returned r.
Proof.
  intros I H. rewrite u_extract_eq by assumption. destruct (N.leb_spec (upos b + n) (ulen b)); intros E.
  - inversion E; subst. cbn [udata]. split; [reflexivity|]. split; [|exact Logic.I].
    destruct I. split; unfold ulen in *; cbn [udata upos]; assumption.
  - inversion E; subst. split; [reflexivity|]. split; [assumption|exact Logic.I].
Qed.

Lemma rmap_returned {X Y} (f : X -> Y) r : returned (rmap f r) <-> returned r.
Proof. destruct r; cbn; tauto. Qed.

Lemma int_inv c b n r b' : uinv b -> n <= ISIZE_MAX -> u_int c n b = (r, b') ->
  udata b' = udata b /\ uinv b' /\ returned r.
Proof.
  intros I H. unfold u_int. destruct (u_extract_bytes c b n) as [r1 b1] eqn:E1.
  intros E; inversion E; subst. rewrite rmap_returned. eapply extract_inv; eassumption.
Qed.

Lemma slice_cons {X} (d : list X) p : (p < length d)%nat -> exists x, nth_error d p = Some x /\ slice d p 1 = [x].
Proof.
  intros H. unfold slice. destruct (nth_error d p) as [x|] eqn:E.
  - exists x. split; [reflexivity|]. revert d E H. induction p; intros [|y d] E H; cbn in *; try discriminate.
    + congruence. + apply IHp; [assumption|lia].
  - apply nth_error_None in E. lia.
Qed.

Lemma int1_small c b n b' : byte_list (udata b) -> uinv b -> u_int c 1 b = (Ok n, b') -> n < 256.
Proof.
  intros HB I. unfold u_int. rewrite u_extract_eq by (assumption || unfold ISIZE_MAX; lia).
  destruct (N.leb_spec (upos b + 1) (ulen b)); intros E; inversion E; subst.
  destruct (slice_cons (udata b) (N.to_nat (upos b))) as (x & Hx & Hs); [unfold ulen in *; lia|].
  change (Pos.to_nat 1) with 1%nat. rewrite Hs.
  assert (x < 256) by (eapply byte_at; eassumption). unfold unbe; cbn [fold_left]. lia.
Qed.

Lemma isize1 : 1 <= ISIZE_MAX. Proof. unfold ISIZE_MAX; lia. Qed.
Lemma isize2 : 2 <= ISIZE_MAX. Proof. unfold ISIZE_MAX; lia. Qed.
Lemma isize4 : 4 <= ISIZE_MAX. Proof. unfold ISIZE_MAX; lia. Qed.

Lemma char_inv c b r b' : byte_list (udata b) -> uinv b -> u_char_string c b = (r, b') ->
  udata b' = udata b /\ uinv b' /\ returned r.
Proof.
  intros HB I. unfold u_char_string. destruct (u_int c 1 b) as [r1 b1] eqn:E1.
  destruct (int_inv _ _ _ _ _ I isize1 E1) as (D & I1 & R).
  destruct r1 as [n|e| |]; try (intros E; inversion E; subst; auto; fail).
  intros E. assert (n < 256) by (eapply int1_small; eassumption).
  assert (n <= ISIZE_MAX) by (unfold ISIZE_MAX; lia). destruct (extract_inv _ _ _ _ _ I1 H0 E) as (D2 & I2 & R2).
  split; [congruence|]. split; assumption.
Qed.

Lemma fqdn_inv b r b' : uinv b -> u_fqdn b = (r, b') -> udata b' = udata b /\ uinv b'.
Proof.
  intros [I1 I2]. unfold u_fqdn. destruct (extract_fqdn _) as [r1 b1] eqn:E1. intros E; inversion E; subst.
  apply keeps_fqdn in E1; [|unfold inv, ulen in *; cbn; lia]. cbn in E1. destruct E1 as [D J].
  cbn [udata]. split; [assumption|]. unfold uinv, ulen, inv in *; cbn in *. rewrite D in *. lia.
Qed.

(** One call: bytes unchanged, position inside; only a name can panic. *)
Lemma call_inv c x b r b' : byte_list (udata b) -> uinv b -> call_bounded x -> do_call c x b = (r, b') ->
  udata b' = udata b /\ uinv b' /\ (x <> ExtractFqdn -> returned r).
Proof.
  intros HB I H. destruct x; cbn [do_call call_bounded] in *.
  - rewrite u_advance_eq by assumption. destruct (N.leb_spec (upos b + n) (ulen b)); intros E; inversion E; subst.
    + cbn [udata returned]. destruct I. repeat split; unfold ulen in *; cbn; assumption.
    + cbn [returned]. auto.
  - unfold u_set_position. destruct (N.ltb_spec (ulen b) p); intros E; inversion E; subst.
    + cbn [returned]. auto.
    + cbn [udata returned]. destruct I. repeat split; unfold ulen in *; cbn; assumption.
  - rewrite u_peek_eq by assumption. intros E; inversion E; subst.
    split; [reflexivity|]. split; [assumption|]. intros _. destruct (_ <=? _); exact Logic.I.
  - destruct (u_extract_bytes c b n) as [r1 b1] eqn:E1. cbn [fst snd]. intros E; inversion E; subst.
    rewrite rmap_returned. destruct (extract_inv _ _ _ _ _ I H E1) as (? & ? & ?). auto.
  - destruct (u_int c 1 b) as [r1 b1] eqn:E1. cbn [fst snd]. intros E; inversion E; subst.
    rewrite rmap_returned. destruct (int_inv _ _ _ _ _ I isize1 E1) as (? & ? & ?). auto.
  - destruct (u_int c 2 b) as [r1 b1] eqn:E1. cbn [fst snd]. intros E; inversion E; subst.
    rewrite rmap_returned. destruct (int_inv _ _ _ _ _ I isize2 E1) as (? & ? & ?). auto.
  - destruct (u_int c 4 b) as [r1 b1] eqn:E1. cbn [fst snd]. intros E; inversion E; subst.
    rewrite rmap_returned. destruct (int_inv _ _ _ _ _ I isize4 E1) as (? & ? & ?). auto.
  - destruct (u_char_string c b) as [r1 b1] eqn:E1. cbn [fst snd]. intros E; inversion E; subst.
    rewrite rmap_returned. destruct (char_inv _ _ _ _ HB I E1) as (? & ? & ?). auto.
  - unfold u_string. destruct (u_char_string c b) as [r1 b1] eqn:E1. cbn [fst snd]. intros E; inversion E; subst.
    rewrite rmap_returned. destruct (char_inv _ _ _ _ HB I E1) as (? & ? & R). split; [assumption|]. split; [assumption|].
    intros _. destruct r1 as [s| | |]; cbn in *; try tauto. destruct (utf8_valid s); exact Logic.I.
  - destruct (u_fqdn b) as [r1 b1] eqn:E1. cbn [fst snd]. intros E; inversion E; subst.
    destruct (fqdn_inv _ _ _ I E1). split; [assumption|]. split; [assumption|]. intros C. congruence.
Qed.

Lemma calls_inv c xs : forall b b', byte_list (udata b) -> uinv b -> Forall call_bounded xs ->
  do_calls c xs b = Some b' -> udata b' = udata b /\ uinv b'.
Proof.
  induction xs as [|x xs IH]; intros b b' HB I F E; cbn [do_calls] in E.
  - inversion E; subst; auto.
  - apply Forall_cons_iff in F as [F1 F2]. destruct (do_call c x b) as [r b1] eqn:E1.
    destruct (call_inv _ _ _ _ _ HB I F1 E1) as (D & I1 & _).
    assert (G : do_calls c xs b1 = Some b') by (destruct r; (exact E || discriminate)).
    apply IH in G; try assumption; [|rewrite D; assumption]. destruct G. split; [congruence|assumption].
Qed.

Lemma calls_return c xs : forall b, byte_list (udata b) -> uinv b -> Forall call_bounded xs ->
  ~ In ExtractFqdn xs -> exists b', do_calls c xs b = Some b'.
Proof.
  induction xs as [|x xs IH]; intros b HB I F NF; cbn [do_calls].
  - eauto.
  - apply Forall_cons_iff in F as [F1 F2]. destruct (do_call c x b) as [r b1] eqn:E1.
    destruct (call_inv _ _ _ _ _ HB I F1 E1) as (D & I1 & R).
    assert (returned r) by (apply R; intros ->; apply NF; left; reflexivity).
    assert (G : exists b', do_calls c xs b1 = Some b').
    { apply IH; try assumption; [rewrite D; assumption|]. intros C; apply NF; right; assumption. }
    destruct r; cbn in H; try contradiction; exact G.
Qed.

(** ** Big-endian integers *)
Fixpoint big_endian (bs : bytes) : N :=
  match bs with [] => 0 | b :: r => b * 256 ^ N.of_nat (length r) + big_endian r end.

Lemma unbe_big_endian bs : unbe bs = big_endian bs.
Proof.
  induction bs as [|bs b IH] using rev_ind_len; [reflexivity|].
  rewrite unbe_app, IH. clear IH. induction bs as [|x bs IH]; [cbn; lia|].
  cbn [app big_endian]. rewrite <- IH. rewrite app_length. cbn [length].
  replace (N.of_nat (length bs + 1)) with (N.succ (N.of_nat (length bs))) by lia.
  rewrite N.pow_succ_r'. lia.
Qed.

(** What an extraction of [n] octets does, in terms of the octets that stand there. *)
Lemma extract_present c pre bs suf : N.of_nat (length (pre ++ bs ++ suf)) <= ISIZE_MAX ->
  let d := pre ++ bs ++ suf in let p := N.of_nat (length pre) in let n := N.of_nat (length bs) in
  u_extract_bytes c (mkubuf d p) n = (Ok bs, mkubuf d (p + n)) /\
  u_peek_bytes c (mkubuf d p) n = Ok bs /\
  u_advance c (mkubuf d p) n = (Ok tt, mkubuf d (p + n)) /\
  u_int c n (mkubuf d p) = (Ok (big_endian bs), mkubuf d (p + n)).
Proof.
  intros L d p n. assert (I : uinv (mkubuf d p)).
  { unfold uinv, ulen; cbn. subst d p. rewrite !app_length in *. lia. }
  assert (H : n <= ISIZE_MAX) by (subst n; rewrite !app_length in L; lia).
  assert (E : upos (mkubuf d p) + n <=? ulen (mkubuf d p) = true).
  { unfold ulen; cbn. subst d p n. rewrite !app_length. lia. }
  unfold u_int. rewrite u_extract_eq, u_peek_eq, u_advance_eq, E by assumption. cbn [udata upos].
  subst d p n. rewrite !Nat2N.id, slice_exact. cbn. rewrite unbe_big_endian. auto.
Qed.

Lemma extract_absent c d p n : N.of_nat (length d) <= ISIZE_MAX -> p <= N.of_nat (length d) ->
  n <= ISIZE_MAX -> N.of_nat (length d) < p + n ->
  u_extract_bytes c (mkubuf d p) n = (Err LengthViolation, mkubuf d p) /\
  u_peek_bytes c (mkubuf d p) n = Err LengthViolation /\
  u_advance c (mkubuf d p) n = (Err LengthViolation, mkubuf d p) /\
  u_int c n (mkubuf d p) = (Err LengthViolation, mkubuf d p).
Proof.
  intros L Hp Hn H. assert (I : uinv (mkubuf d p)) by (unfold uinv, ulen; cbn; lia).
  assert (E : upos (mkubuf d p) + n <=? ulen (mkubuf d p) = false) by (unfold ulen; cbn; lia).
  unfold u_int. rewrite u_extract_eq, u_peek_eq, u_advance_eq, E by assumption. auto.
Qed.

(** ** Any [usize] argument *)
Lemma u_fits c b n : uinv b -> upos b + n < M64 ->
  u_advance c b n = (if upos b + n <=? ulen b then (Ok tt, mkubuf (udata b) (upos b + n)) else (Err LengthViolation, b)) /\
  u_sub_buffer c b n = (if upos b + n <=? ulen b then Ok (mkubuf (firstn (N.to_nat (upos b + n)) (udata b)) (upos b)) else Err LengthViolation) /\
  u_peek_bytes c b n = (if upos b + n <=? ulen b then Ok (slice (udata b) (N.to_nat (upos b)) (N.to_nat n)) else Err LengthViolation) /\
  u_extract_bytes c b n = (if upos b + n <=? ulen b then (Ok (slice (udata b) (N.to_nat (upos b)) (N.to_nat n)), mkubuf (udata b) (upos b + n))
                           else (Err LengthViolation, b)).
Proof.
  intros I H. destruct (N.leb_spec n ISIZE_MAX) as [L|L].
  - split; [apply u_advance_eq; assumption|]. split; [apply u_sub_eq; assumption|]. split; [apply u_peek_eq; assumption|apply u_extract_eq; assumption].
  - destruct I as (I1 & I2). unfold u_advance, u_sub_buffer, u_peek_bytes, u_extract_bytes, uadd. rewrite !(N.add_comm n).
    destruct (N.ltb_spec (upos b + n) M64); [|lia]. cbn [rbind].
    destruct (N.ltb_spec (ulen b) (upos b + n)), (N.leb_spec (upos b + n) (ulen b)); try lia. auto.
Qed.
Lemma u_overflows c b n : uinv b -> n < M64 -> M64 <= upos b + n ->
  if ovf c then u_advance c b n = (Panic, b) /\ u_sub_buffer c b n = Panic /\ u_peek_bytes c b n = Panic /\ u_extract_bytes c b n = (Panic, b)
  else let e := upos b + n - M64 in e < upos b /\ u_advance c b n = (Ok tt, mkubuf (udata b) e) /\ u_sub_buffer c b n = Ok (mkubuf (firstn (N.to_nat e) (udata b)) (upos b)) /\
       u_peek_bytes c b n = Panic /\ u_extract_bytes c b n = (Panic, mkubuf (udata b) e).
Proof.
  intros (I1 & I2) H O. assert (W : upos b < M64 /\ ISIZE_MAX < M64) by (unfold M64, ISIZE_MAX in *; lia).
  assert (E1 : (upos b + n) mod M64 = upos b + n - M64).
  { replace (upos b + n) with ((upos b + n - M64) + 1 * M64) at 1 by lia. rewrite N.mod_add by discriminate. apply N.mod_small. lia. }
  assert (E2 : (upos b + n - M64 + M64 - n) mod M64 = upos b) by (replace (upos b + n - M64 + M64 - n) with (upos b) by lia; apply N.mod_small; lia).
  unfold u_advance, u_sub_buffer, u_peek_bytes, u_extract_bytes, uadd, usub. rewrite !(N.add_comm n).
  destruct (N.ltb_spec (upos b + n) M64); [lia|]. destruct (ovf c) eqn:E; cbn [rbind]; [auto|]. rewrite E1. clear E1. cbv zeta.
  destruct (N.ltb_spec (ulen b) (upos b + n - M64)); [lia|]. destruct (N.leb_spec n (upos b + n - M64)); [lia|]. rewrite E2. cbn [rbind].
  assert (P : index_range (udata b) (upos b) (upos b + n - M64) = Panic) by (unfold index_range; destruct (N.leb_spec (upos b) (upos b + n - M64)); [lia|reflexivity]).
  rewrite P. rewrite index_range_ok; [|lia|unfold ulen in *; lia]. cbn [rbind]. rewrite N.sub_0_r. split; [lia|]. auto.
Qed.
