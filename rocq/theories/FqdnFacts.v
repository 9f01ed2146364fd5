(** * Lemmas about Fqdn.v: plain and compressed encodings of names. *)
From Verif Require Import Base Utf8 Buffer Fqdn BaseFacts BufferFacts NameSpec FqdnLoop.
From Coq Require Import Lia ZifyBool ZifyNat ZifyN.
Ltac Zify.zify_post_hook ::= Z.div_mod_to_equations.

(** ** Plain encoding *)
Definition label_bytes (l : bytes) : bytes := len8 (length l) :: l.

(** Names whose labels the wire format can carry: 1 to 191 octets each. *)
Definition label_ok (l : bytes) : Prop := (1 <= length l <= 191)%nat.
Definition fqdn_ok (f : fqdn) : Prop := Forall label_ok f.

Lemma fqdn_to_bytes_eq f : fqdn_to_bytes f = flat_map label_bytes (filter nonempty f) ++ [0].
Proof.
  unfold fqdn_to_bytes. f_equal.
  assert (H : forall acc, fold_left (fun buf l => if nonempty l then buf ++ len8 (length l) :: l else buf) f acc
              = acc ++ flat_map label_bytes (filter nonempty f)).
  { induction f as [|l f IH]; intros acc; cbn [fold_left filter flat_map]; [rewrite app_nil_r; reflexivity|].
    rewrite IH. destruct (nonempty l); [|reflexivity].
    cbn [flat_map]. rewrite <- app_assoc. reflexivity. }
  apply (H []).
Qed.

Lemma fqdn_byte_size_eq f : fqdn_byte_size f = length (fqdn_to_bytes f).
Proof.
  rewrite fqdn_to_bytes_eq, app_length. cbn [length]. unfold fqdn_byte_size.
  assert (H : forall n, fold_left (fun acc l => (acc + if nonempty l then 1 + length l else 0)%nat) f n
              = (n + length (flat_map label_bytes (filter nonempty f)))%nat).
  { induction f as [|l f IH]; intros n; cbn [fold_left filter flat_map length]; [lia|].
    rewrite IH. destruct (nonempty l); [|lia].
    cbn [flat_map]. rewrite app_length. unfold label_bytes at 2; cbn [length]. lia. }
  rewrite H. lia.
Qed.

Lemma filter_nonempty_ok f : fqdn_ok f -> filter nonempty f = f.
Proof.
  induction 1 as [|l f Hl Hf IH]; cbn; [reflexivity|].
  destruct l; [destruct Hl; cbn in *; lia|]. cbn. rewrite IH. reflexivity.
Qed.

Lemma label_at_app ml pre l suf : ml <= 191 -> 1 <= N.of_nat (length l) <= ml ->
  label_at (pre ++ label_bytes l ++ suf) ml (length pre) l.
Proof.
  intros HM [H1 H2]. exists (N.of_nat (length l)). unfold label_bytes. rewrite len8_id by lia.
  repeat split; try lia.
  - rewrite nth_error_app2, Nat.sub_diag by lia. reflexivity.
  - rewrite !app_length; cbn [length app]. lia.
  - rewrite Nat2N.id. change ((N.of_nat (length l) :: l) ++ suf) with ([N.of_nat (length l)] ++ l ++ suf).
    rewrite app_assoc. replace (length pre + 1)%nat with (length (pre ++ [N.of_nat (length l)]))
      by (rewrite app_length; reflexivity).
    symmetry. apply slice_exact.
Qed.

Lemma name_at_plain f : fqdn_ok f -> forall pre suf,
  name_at (pre ++ (flat_map label_bytes f ++ [0]) ++ suf) 191 (length pre) f
          (length pre + length (flat_map label_bytes f ++ [0])).
Proof.
  induction 1 as [|l f Hl Hf IH]; intros pre suf; cbn [flat_map].
  - cbn [app length]. constructor. rewrite nth_error_app2, Nat.sub_diag by lia. reflexivity.
  - rewrite <- !app_assoc. econstructor.
    + apply label_at_app; [lia|]. destruct Hl. lia.
    + specialize (IH (pre ++ label_bytes l) suf).
      rewrite <- !app_assoc in IH. rewrite !app_length in *. cbn [length label_bytes] in *.
      replace (length pre + 1 + length l)%nat with (length pre + S (length l))%nat by lia.
      replace (length pre + (S (length l) + (length (flat_map label_bytes f) + 1)))%nat
        with (length pre + S (length l) + (length (flat_map label_bytes f) + 1))%nat by lia.
      exact IH.
Qed.

(** [extract_fqdn] reads a plainly encoded name back, wherever it stands. *)
Lemma reads_fqdn f pre suf : fqdn_ok f -> reads pre suf extract_fqdn (fqdn_to_bytes f) f.
Proof.
  intros H. unfold reads. rewrite fqdn_to_bytes_eq, filter_nonempty_ok by assumption.
  apply extract_fqdn_complete, name_at_plain, H.
Qed.

(** Empty labels are dropped by the encoder. *)
Lemma reads_fqdn_gen f pre suf : Forall (fun l => length l <= 191)%nat f ->
  reads pre suf extract_fqdn (fqdn_to_bytes f) (filter nonempty f).
Proof.
  intros H. unfold reads. rewrite fqdn_to_bytes_eq.
  apply extract_fqdn_complete, name_at_plain.
  apply Forall_forall. intros l Hl. apply filter_In in Hl as [Hl Hn].
  rewrite Forall_forall in H. specialize (H l Hl).
  destruct l; [discriminate|]. split; cbn in *; lia.
Qed.

(** ** Extending the message *)
Lemma label_at_ext d x ml p l : label_at d ml p l -> label_at (d ++ x) ml p l.
Proof.
  intros [n [E [Hn [Hb ->]]]].
  assert (p < length d)%nat by (apply nth_error_Some; congruence).
  exists n. repeat split; try lia.
  - rewrite nth_error_app1 by lia. assumption.
  - rewrite app_length. lia.
  - unfold slice. rewrite skipn_app, firstn_app, skipn_length.
    replace (N.to_nat n - (length d - (p + 1)))%nat with 0%nat by lia.
    cbn [firstn]. rewrite app_nil_r. reflexivity.
Qed.

Lemma pointer_at_ext d x p t : pointer_at d p t -> pointer_at (d ++ x) p t.
Proof.
  intros [a [b [Ea [Ha [Eb [Hb Ht]]]]]].
  assert (p + 1 < length d)%nat by (apply nth_error_Some; congruence).
  exists a, b. rewrite !nth_error_app1 by lia. auto.
Qed.

Lemma tail_at_ext d x ml lim lim' p ls :
  (lim <= lim')%nat -> tail_at d ml lim p ls -> tail_at (d ++ x) ml lim' p ls.
Proof.
  intros Hle. induction 1 as [p E|p l ls Hl Ht IH|p t ls Hp Hlt Ht IH].
  - constructor. rewrite nth_error_app1; [assumption|]. apply nth_error_Some; congruence.
  - constructor; [apply label_at_ext|]; assumption.
  - econstructor; [apply pointer_at_ext; eassumption|lia|assumption].
Qed.

Lemma name_at_ext d x ml p ls q : name_at d ml p ls q -> name_at (d ++ x) ml p ls q.
Proof.
  induction 1 as [p E|p l ls q Hl Ht IH|p t ls Hp Hlt Ht].
  - constructor. rewrite nth_error_app1; [assumption|]. apply nth_error_Some; congruence.
  - constructor; [apply label_at_ext|]; assumption.
  - econstructor; [apply pointer_at_ext; eassumption|lia|eapply tail_at_ext; [|eassumption]; lia].
Qed.

Lemma name_at_tail d ml p ls q lim : (length d <= lim)%nat -> name_at d ml p ls q -> tail_at d ml lim p ls.
Proof.
  intros HL. induction 1 as [p E|p l ls q Hl Ht IH|p t ls Hp Hlt Ht].
  - constructor; assumption.
  - constructor; assumption.
  - assert (p + 1 < length d)%nat.
    { destruct Hp as [a [b [_ [_ [E _]]]]]. apply nth_error_Some; congruence. }
    econstructor; [eassumption|lia|].
    rewrite <- (app_nil_r d). eapply tail_at_ext; [|eassumption]. lia.
Qed.

Lemma strict_ext d x ml p ls q : strict_name_at d ml p ls q -> strict_name_at (d ++ x) ml p ls q.
Proof.
  induction 1 as [p E|p l ls q Hl Ht IH|p t ls q Hp Ht IH Hlt].
  - constructor. rewrite nth_error_app1; [assumption|]. apply nth_error_Some; congruence.
  - constructor; [apply label_at_ext|]; assumption.
  - econstructor; [apply pointer_at_ext; eassumption|eassumption|assumption].
Qed.

Lemma label_at_mono d ml ml' p l : ml <= ml' -> label_at d ml p l -> label_at d ml' p l.
Proof. intros H [n [E [Hn [Hb Hl]]]]. exists n. repeat split; try assumption; lia. Qed.

Lemma strict_mono d ml ml' p ls q : ml <= ml' -> strict_name_at d ml p ls q -> strict_name_at d ml' p ls q.
Proof.
  intros HM. induction 1 as [p E|p l ls q Hl Ht IH|p t ls q Hp Ht IH Hlt].
  - constructor; assumption.
  - constructor; [eapply label_at_mono|]; eassumption.
  - econstructor; eassumption.
Qed.

Lemma strict_tail d ml p ls q : strict_name_at d ml p ls q ->
  forall lim, (q <= lim)%nat -> tail_at d ml lim p ls.
Proof.
  induction 1 as [p E|p l ls q Hl Ht IH|p t ls q Hp Ht IH Hlt]; intros lim HL.
  - constructor; assumption.
  - constructor; auto.
  - econstructor; [eassumption|lia|]. apply IH. lia.
Qed.

Lemma strict_name d ml p ls q : strict_name_at d ml p ls q -> name_at d ml p ls q.
Proof.
  induction 1 as [p E|p l ls q Hl Ht IH|p t ls q Hp Ht IH Hlt].
  - constructor; assumption.
  - constructor; assumption.
  - econstructor; [eassumption|lia|]. eapply strict_tail; [eassumption|lia].
Qed.

(** ** Compressed encoding *)
Lemma pointer_bytes_eq off : N.of_nat off < 16384 ->
  pointer_bytes off = [192 + N.of_nat off / 256; N.of_nat off mod 256].
Proof.
  intros H. unfold pointer_bytes, COMPRESSION_MASK_U16.
  assert (E : N.lor (u16 (N.of_nat off)) 49152 = N.of_nat off + 49152).
  { unfold u16. rewrite N.mod_small by lia.
    change 49152 with (3 * 2 ^ 14). rewrite <- N.shiftl_mul_pow2.
    assert (L : N.land (N.of_nat off) (N.shiftl 3 14) = 0).
    { apply N.bits_inj_0. intros i. rewrite N.land_spec.
      destruct (N.ltb_spec i 14).
      - rewrite N.shiftl_spec_low by assumption. apply andb_false_r.
      - destruct (N.eq_dec (N.of_nat off) 0) as [->|]; [rewrite N.bits_0; reflexivity|].
        rewrite N.bits_above_log2; [reflexivity|].
        assert (N.log2 (N.of_nat off) < 14); [|lia].
        apply N.log2_lt_pow2; [lia|]. change (2 ^ 14) with 16384. lia. }
    rewrite <- N.lxor_lor by assumption. symmetry. apply N.add_nocarry_lxor. assumption. }
  rewrite E. cbn [be app].
  assert (E1 : (N.of_nat off + 49152) / 256 mod 256 = 192 + N.of_nat off / 256) by lia.
  assert (E2 : (N.of_nat off + 49152) mod 256 = N.of_nat off mod 256) by lia.
  rewrite E1, E2. reflexivity.
Qed.

Lemma pointer_bytes_length off : length (pointer_bytes off) = 2%nat.
Proof. apply be_length. Qed.

Lemma pointer_at_app pre off suf : N.of_nat off < 16384 ->
  pointer_at (pre ++ pointer_bytes off ++ suf) (length pre) off.
Proof.
  intros H. rewrite pointer_bytes_eq by assumption.
  exists (192 + N.of_nat off / 256), (N.of_nat off mod 256).
  split; [|split; [lia|split; [|split; [lia|]]]].
  - rewrite nth_error_app2, Nat.sub_diag by lia. reflexivity.
  - rewrite nth_error_app2 by lia. replace (length pre + 1 - length pre)%nat with 1%nat by lia.
    reflexivity.
  - lia.
Qed.

(** Where a suffix can be found in what has been written so far. *)
Definition good (ml : N) (w : bytes) (off : nat) (s : fqdn) : Prop :=
  N.of_nat off < 16384 /\
  exists q, strict_name_at w ml off s q /\ (off < q <= length w)%nat.

Lemma good_ext ml w x off s : good ml w off s -> good ml (w ++ x) off s.
Proof.
  intros [H1 [q [H2 H3]]]. split; [assumption|]. exists q. split; [apply strict_ext, H2|].
  rewrite app_length; lia.
Qed.

(** All labels have 1 to [ml] octets. *)
Definition labels_upto (ml : N) (f : fqdn) : Prop :=
  Forall (fun l : bytes => 1 <= N.of_nat (length l) <= ml) f.

Section COMPRESS.
Variable h : hasher.
(** The suffixes that may be written; on these the hash is assumed to be collision free. *)
Variable U : fqdn -> Prop.
(** The largest label. *)
Variable ml : N.
Hypothesis Hml : ml <= 191.
Definition no_collision : Prop := forall s1 s2, U s1 -> U s2 -> h s1 = h s2 -> s1 = s2.
Definition suffixes_in (f : fqdn) : Prop := forall a s, f = a ++ s -> s <> [] -> U s.

Lemma suffixes_tl l f : suffixes_in (l :: f) -> suffixes_in f.
Proof. intros H a s -> Hs. apply (H (l :: a) s); [reflexivity|assumption]. Qed.

(** The dictionary is correct for the written bytes [w]. *)
Definition dict_ok (w : bytes) (m : names) : Prop := forall k off,
  names_get k m = Some off -> exists s, U s /\ h s = k /\ good ml w off s.

Lemma dict_ok_nil w : dict_ok w [].
Proof. intros k off; discriminate. Qed.

Lemma dict_ok_ext w x m : dict_ok w m -> dict_ok (w ++ x) m.
Proof. intros H k off E. destruct (H _ _ E) as [s [H1 [H2 H3]]]. exists s. auto using good_ext. Qed.

Lemma compress_spec (NC : no_collision) w0 f : labels_upto ml f -> suffixes_in f -> forall m w bs m',
  (forall k off, names_get k m = Some off -> exists s, U s /\ h s = k /\
     ((length f < length s)%nat \/ good ml w0 off s)) ->
  (exists x, w = w0 ++ x) ->
  fqdn_to_bytes_compressed h f m (length w) = (bs, m') ->
  N.of_nat (length w + length bs) <= 16384 ->
  strict_name_at (w ++ bs) ml (length w) f (length w + length bs) /\
  forall k off, names_get k m' = Some off ->
    names_get k m = Some off \/ exists s, U s /\ h s = k /\ good ml (w ++ bs) off s.
Proof.
  induction 1 as [|l f Hl Hf IH]; intros HU m w bs m' Hm Hw E Hlen; cbn [fqdn_to_bytes_compressed] in E.
  - inversion E; subst. split; [|auto].
    constructor. rewrite nth_error_app2, Nat.sub_diag by lia. reflexivity.
  - assert (HUf : U (l :: f)) by (apply (HU [] (l :: f)); [reflexivity|discriminate]).
    destruct (names_get (h (l :: f)) m) as [p|] eqn:EG.
    + inversion E; subst. split; [|auto].
      destruct (Hm _ _ EG) as [s [Us [Hs G]]].
      apply NC in Hs; [subst s|assumption|assumption].
      destruct G as [G|[G1 [q [G2 G3]]]]; [lia|]. destruct Hw as [x ->].
      rewrite pointer_bytes_length. rewrite <- (app_nil_r (pointer_bytes p)).
      apply strict_ptr with (t := p) (q := q); [apply pointer_at_app; assumption| |rewrite app_length; lia].
      rewrite <- app_assoc. apply strict_ext, G2.
    + destruct (fqdn_to_bytes_compressed h f (names_insert (h (l :: f)) (length w) m)
                  (length w + (length l + 1))) as [bs1 m1] eqn:E1.
      assert (Ebs : bs = label_bytes l ++ bs1 /\ m' = m1) by (inversion E; auto).
      destruct Ebs as [-> ->]. clear E.
      rewrite app_length in Hlen. cbn [length label_bytes] in Hlen.
      replace (length w + (length l + 1))%nat with (length (w ++ label_bytes l)) in E1
        by (rewrite app_length; cbn [label_bytes length]; lia).
      destruct (IH (suffixes_tl _ _ HU) (names_insert (h (l :: f)) (length w) m)
                   (w ++ label_bytes l) bs1 m1) as [IH1 IH2].
      * intros k off. unfold names_insert; cbn [names_get].
        destruct (N.eqb_spec k (h (l :: f))) as [->|]; intros Ek.
        -- exists (l :: f). split; [assumption|]. split; [reflexivity|]. left. cbn; lia.
        -- destruct (Hm _ _ Ek) as [s [H1 [H2 [H3|H3]]]]; exists s; (split; [assumption|]);
             (split; [assumption|]); [left; cbn in *; lia|right; assumption].
      * destruct Hw as [x ->]. exists (x ++ label_bytes l). rewrite app_assoc. reflexivity.
      * exact E1.
      * rewrite app_length; cbn [length label_bytes]. lia.
      * assert (HN : strict_name_at (w ++ label_bytes l ++ bs1) ml (length w) (l :: f)
                       (length w + length (label_bytes l ++ bs1))).
        { econstructor; [apply label_at_app; [exact Hml|exact Hl]|].
          rewrite <- app_assoc in IH1. rewrite !app_length in *. cbn [length label_bytes] in *.
          replace (length w + 1 + length l)%nat with (length w + S (length l))%nat by lia.
          replace (length w + (S (length l) + length bs1))%nat
            with (length w + S (length l) + length bs1)%nat by lia.
          exact IH1. }
        split; [exact HN|].
        intros k off Ek. destruct (IH2 _ _ Ek) as [Ei|[s [H1 [H2 H3]]]].
        -- unfold names_insert in Ei; cbn [names_get] in Ei.
           destruct (N.eqb_spec k (h (l :: f))) as [->|]; [|auto].
           inversion Ei; subst off. right. exists (l :: f). split; [assumption|].
           split; [reflexivity|]. split; [lia|]. eexists. split; [exact HN|].
           rewrite !app_length. cbn [app label_bytes length]. lia.
        -- right. exists s. rewrite <- app_assoc in H3. auto.
Qed.

(** A compressed name, written after [w] with a dictionary correct for [w], is a legal name at that
    place, is decoded to itself, and the new dictionary is correct for what has now been written. *)
Lemma compress_strict (NC : no_collision) w m f bs m' :
  labels_upto ml f -> suffixes_in f -> dict_ok w m ->
  fqdn_to_bytes_compressed h f m (length w) = (bs, m') ->
  N.of_nat (length w + length bs) <= 16384 ->
  strict_name_at (w ++ bs) ml (length w) f (length w + length bs) /\ dict_ok (w ++ bs) m'.
Proof.
  intros Hf HU Hd E Hlen.
  destruct (compress_spec NC w f Hf HU m w bs m') as [H1 H2]; try assumption.
  - intros k off Ek. destruct (Hd _ _ Ek) as [s [A [B C]]]. eauto 6.
  - exists []. rewrite app_nil_r. reflexivity.
  - split; [exact H1|].
    intros k off Ek. destruct (H2 _ _ Ek) as [Eo|Hs]; [|exact Hs].
    destruct (Hd _ _ Eo) as [s [A [B C]]]. exists s. auto using good_ext.
Qed.
End COMPRESS.

Lemma fqdn_ok_191 f : fqdn_ok f <-> labels_upto 191 f.
Proof. unfold fqdn_ok, labels_upto, label_ok. split; apply Forall_impl; intros; lia. Qed.

Lemma compress_ok h U (NC : no_collision h U) w m f bs m' :
  fqdn_ok f -> suffixes_in U f -> dict_ok h U 191 w m ->
  fqdn_to_bytes_compressed h f m (length w) = (bs, m') ->
  N.of_nat (length w + length bs) <= 16384 ->
  (forall suf, reads w suf extract_fqdn bs f) /\ dict_ok h U 191 (w ++ bs) m'.
Proof.
  intros Hf HU Hd E Hlen.
  destruct (compress_strict h U 191 (N.le_refl _) NC w m f bs m') as [H1 H2]; try assumption.
  - apply fqdn_ok_191, Hf.
  - split; [|exact H2]. intros suf. unfold reads. apply extract_fqdn_complete. rewrite app_assoc.
    apply name_at_ext, strict_name, H1.
Qed.

(** ** Sizes of compressed names *)
Lemma compressed_size h f : forall m off,
  fqdn_byte_size_compressed h f m off =
  (length (fst (fqdn_to_bytes_compressed h f m off)), snd (fqdn_to_bytes_compressed h f m off)).
Proof.
  induction f as [|l f IH]; intros m off;
    cbn [fqdn_byte_size_compressed fqdn_to_bytes_compressed]; [reflexivity|].
  destruct (names_get (h (l :: f)) m); [reflexivity|].
  rewrite IH. destruct (fqdn_to_bytes_compressed h f _ _) as [bs m'].
  cbn [fst snd length]. rewrite app_length. f_equal. lia.
Qed.

Lemma compressed_not_longer h f : Forall (fun l => nonempty l = true) f -> forall m off,
  (length (fst (fqdn_to_bytes_compressed h f m off)) <= length (fqdn_to_bytes f))%nat.
Proof.
  induction 1 as [|l f Hl Hf IH]; intros m off; cbn [fqdn_to_bytes_compressed].
  - cbn. lia.
  - assert (E : length (fqdn_to_bytes (l :: f)) = (1 + length l + length (fqdn_to_bytes f))%nat).
    { rewrite !fqdn_to_bytes_eq. cbn [filter]. rewrite Hl. cbn [flat_map].
      rewrite !app_length. cbn [label_bytes length]. lia. }
    rewrite E. destruct (names_get (h (l :: f)) m).
    + cbn [fst]. rewrite pointer_bytes_length. destruct l; [discriminate|]. cbn [length].
      rewrite <- fqdn_byte_size_eq. lia.
    + specialize (IH (names_insert (h (l :: f)) off m) (off + (length l + 1))%nat).
      destruct (fqdn_to_bytes_compressed h f _ _) as [bs m'].
      cbn [fst length] in *. rewrite app_length. lia.
Qed.

(** Whether a suffix is in the dictionary does not depend on the offsets stored there. *)
Definition same_keys (m1 m2 : names) : Prop :=
  forall k, names_get k m1 = None <-> names_get k m2 = None.

Lemma same_keys_insert m1 m2 k v1 v2 :
  same_keys m1 m2 -> same_keys (names_insert k v1 m1) (names_insert k v2 m2).
Proof.
  intros H k'. unfold names_insert; cbn [names_get].
  destruct (k' =? k); [split; discriminate|apply H].
Qed.

Lemma compressed_size_offsets h f : forall m1 m2 o1 o2, same_keys m1 m2 ->
  length (fst (fqdn_to_bytes_compressed h f m1 o1)) = length (fst (fqdn_to_bytes_compressed h f m2 o2)) /\ same_keys (snd (fqdn_to_bytes_compressed h f m1 o1)) (snd (fqdn_to_bytes_compressed h f m2 o2)).
Proof.
  induction f as [|l f IH]; intros m1 m2 o1 o2 HK; cbn [fqdn_to_bytes_compressed].
  - auto.
  - pose proof (HK (h (l :: f))) as HK1.
    destruct (names_get (h (l :: f)) m1), (names_get (h (l :: f)) m2);
      [split; [cbn [fst]; rewrite !pointer_bytes_length; reflexivity|assumption]
      |exfalso; destruct HK1; intuition discriminate
      |exfalso; destruct HK1; intuition discriminate|].
    specialize (IH _ _ (o1 + (length l + 1))%nat (o2 + (length l + 1))%nat
                  (same_keys_insert _ _ (h (l :: f)) o1 o2 HK)).
    destruct (fqdn_to_bytes_compressed h f _ (o1 + _)) as [b1 k1],
             (fqdn_to_bytes_compressed h f _ (o2 + _)) as [b2 k2].
    cbn [fst snd] in *. destruct IH as [IH1 IH2]. split; [|assumption].
    cbn [length]. rewrite !app_length. lia.
Qed.
