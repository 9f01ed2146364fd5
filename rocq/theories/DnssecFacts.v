(** * Facts about record sets, signatures, key tags and times *)
From Coq Require Import Sorting.Permutation Sorting.Sorted Lia ZifyNat ZifyN.
From Verif Require Import Base Buffer Fqdn Types RDataSec RData Packet Dnssec BaseFacts BufferFacts FqdnFacts CodeSpec CodeFacts
  RDataSpec RDataReads RDataFacts ParseFacts WireFacts PacketProps DnssecSpec.
Ltac Zify.zify_post_hook ::= Z.div_mod_to_equations.

(** ** The order *)
Lemma cmp_refl a : bytes_cmp a a = Eq.
Proof. induction a as [|x a IH]; [reflexivity|]. cbn [bytes_cmp]. rewrite N.compare_refl. exact IH. Qed.
Lemma cmp_eq a : forall b, bytes_cmp a b = Eq -> a = b.
Proof.
  induction a as [|x a IH]; intros [|y b] H; cbn [bytes_cmp] in H; try reflexivity; try discriminate.
  destruct (N.compare_spec x y); try discriminate. subst y. f_equal. apply IH, H.
Qed.
Lemma lt_cons x a b : octets_lt a b -> octets_lt (x :: a) (x :: b).
Proof.
  intros [a' y b'|p u v a' b' L].
  - apply (prefix_of (x :: a')).
  - apply (first_difference (x :: p)). exact L.
Qed.
Lemma cmp_lt a : forall b, bytes_cmp a b = Lt -> octets_lt a b.
Proof.
  induction a as [|x a IH]; intros [|y b] H; cbn [bytes_cmp] in H; try discriminate.
  - apply (prefix_of []).
  - destruct (N.compare_spec x y); try discriminate.
    + subst y. apply lt_cons, IH, H.
    + apply (first_difference []). assumption.
Qed.
Lemma cmp_gt a : forall b, bytes_cmp a b = Gt -> octets_lt b a.
Proof.
  induction a as [|x a IH]; intros [|y b] H; cbn [bytes_cmp] in H; try discriminate.
  - apply (prefix_of []).
  - destruct (N.compare_spec x y); try discriminate.
    + subst y. apply lt_cons, IH, H.
    + apply (first_difference []). assumption.
Qed.
Lemma lt_cmp a b : octets_lt a b -> bytes_cmp a b = Lt.
Proof.
  intros [a' y b'|p u v a' b' L].
  - induction a' as [|x a' IH]; [reflexivity|]. cbn [app bytes_cmp]. rewrite N.compare_refl. exact IH.
  - induction p as [|x p IH]; cbn [app bytes_cmp].
    + destruct (N.compare_spec u v); try lia. reflexivity.
    + rewrite N.compare_refl. exact IH.
Qed.
Lemma lt_irrefl a : ~ octets_lt a a.
Proof. intros H. apply lt_cmp in H. rewrite cmp_refl in H. discriminate. Qed.
Lemma cmp_trans_lt a : forall b d, bytes_cmp a b = Lt -> bytes_cmp b d = Lt -> bytes_cmp a d = Lt.
Proof.
  induction a as [|x a IH]; intros [|y b] [|z d] H1 H2; cbn [bytes_cmp] in *; try discriminate; try reflexivity.
  destruct (N.compare_spec x y), (N.compare_spec y z); try discriminate; subst.
  - rewrite N.compare_refl. eapply IH; eassumption.
  - destruct (N.compare_spec y z); try lia; reflexivity.
  - destruct (N.compare_spec x z); try lia; reflexivity.
  - destruct (N.compare_spec x z); try lia; reflexivity.
Qed.
Lemma lt_trans a b d : octets_lt a b -> octets_lt b d -> octets_lt a d.
Proof. intros H1 H2. apply cmp_lt. apply (cmp_trans_lt a b d); apply lt_cmp; assumption. Qed.
Lemma le_trans a b d : octets_le a b -> octets_le b d -> octets_le a d.
Proof. intros [->|H1] [->|H2]; [left; reflexivity|right; assumption|right; assumption|right; eapply lt_trans; eassumption]. Qed.
Lemma le_antisym a b : octets_le a b -> octets_le b a -> a = b.
Proof. intros [->|H1] [E|H2]; try reflexivity; [symmetry; exact E|]. exfalso. apply (lt_irrefl a). eapply lt_trans; eassumption. Qed.
Lemma le_total a b : octets_le a b \/ octets_le b a.
Proof.
  destruct (bytes_cmp a b) eqn:E; [left; left; apply cmp_eq, E|left; right; apply cmp_lt, E|right; right; apply cmp_gt, E].
Qed.
Lemma leb_true a b : leb_bytes a b = true -> octets_le a b.
Proof. unfold leb_bytes. destruct (bytes_cmp a b) eqn:E; try discriminate; intros _; [left; apply cmp_eq, E|right; apply cmp_lt, E]. Qed.
Lemma leb_false a b : leb_bytes a b = false -> octets_le b a.
Proof. unfold leb_bytes. destruct (bytes_cmp a b) eqn:E; try discriminate; intros _. right. apply cmp_gt, E. Qed.

(** A sorted list is determined by its elements. *)
Lemma sorted_unique l : forall l', in_order l -> in_order l' -> Permutation l l' -> l = l'.
Proof.
  induction l as [|x l IH]; intros l' S S' Pm.
  - apply Permutation_nil in Pm. symmetry. exact Pm.
  - destruct l' as [|y l']; [apply Permutation_sym, Permutation_nil in Pm; discriminate|].
    inversion S as [|? ? Sl Fx]; subst. inversion S' as [|? ? Sl' Fy]; subst.
    assert (E : x = y).
    { rewrite Forall_forall in Fx, Fy.
      assert (I1 : In x (y :: l')) by (apply (Permutation_in x Pm); left; reflexivity).
      assert (I2 : In y (x :: l)) by (apply (Permutation_in y (Permutation_sym Pm)); left; reflexivity).
      destruct I1 as [->|I1]; [reflexivity|]. destruct I2 as [->|I2]; [reflexivity|].
      apply le_antisym; [apply Fx, I2|apply Fy, I1]. }
    subst y. f_equal. apply IH; [assumption|assumption|]. eapply Permutation_cons_inv. exact Pm.
Qed.

(** ** Insertion *)
Lemma in_order_app a b : in_order (a ++ b) <-> in_order a /\ in_order b /\ Forall (fun x => Forall (octets_le x) b) a.
Proof.
  unfold in_order. induction a as [|x a IH]; cbn [app].
  - split; [intros H; repeat split; [constructor|exact H|constructor]|tauto].
  - split.
    + intros H. inversion H as [|? ? Sa Fa]; subst. apply IH in Sa. destruct Sa as (S1 & S2 & S3). apply Forall_app in Fa.
      destruct Fa as (F1 & F2). split; [constructor; assumption|]. split; [exact S2|]. constructor; assumption.
    + intros (S1 & S2 & S3). inversion S1 as [|? ? Sa Fa]; subst. inversion S3 as [|? ? F1 F2]; subst.
      constructor; [apply IH; auto|]. apply Forall_app. split; assumption.
Qed.
Lemma insert_sorted bs l x : search_contract bs -> in_order l ->
  (search_pos bs l x <= length l)%nat /\ in_order (insert_at (search_pos bs l x) x l).
Proof.
  intros C S. specialize (C l x S). unfold search_pos. destruct (bs l x) as [i|i].
  - assert (L : (i < length l)%nat) by (apply nth_error_Some; rewrite C; discriminate). split; [lia|].
    unfold insert_at. apply nth_error_split in C. destruct C as (a & b & -> & La). subst i.
    rewrite firstn_app, Nat.sub_diag, firstn_all, app_nil_r, skipn_app, Nat.sub_diag, skipn_all. cbn [firstn skipn app].
    apply in_order_app in S. destruct S as (S1 & S2 & S3). apply in_order_app. split; [exact S1|]. split.
    + inversion S2 as [|? ? Sb Fb]; subst. constructor; [exact S2|]. constructor; [left; reflexivity|exact Fb].
    + eapply Forall_impl; [|exact S3]. intros y Fy. inversion Fy; subst. constructor; assumption.
  - destruct C as (L & F1 & F2). split; [exact L|]. unfold insert_at.
    rewrite <- (firstn_skipn i l) in S. apply in_order_app in S. destruct S as (S1 & S2 & S3).
    apply in_order_app. split; [exact S1|]. split.
    + constructor; [exact S2|]. eapply Forall_impl; [|exact F2]. intros y H. right. exact H.
    + rewrite Forall_forall in *. intros y Iy. constructor; [right; apply F1, Iy|]. apply S3, Iy.
Qed.
Lemma insert_perm {X} i (x : X) l : Permutation (insert_at i x l) (x :: l).
Proof. unfold insert_at. rewrite <- (firstn_skipn i l) at 3. symmetry. apply Permutation_middle. Qed.

Lemma sorted_records_ok c bs : search_contract bs -> forall ds acc written, in_order acc ->
  Forall2 (fun d b => rdata_to_bytes c d = Ok b) ds written ->
  exists l, sorted_records c bs ds acc = Ok l /\ in_order l /\ Permutation l (acc ++ written).
Proof.
  intros C ds. induction ds as [|d ds IH]; intros acc written S W.
  - inversion W; subst. exists acc. split; [reflexivity|]. split; [exact S|]. rewrite app_nil_r. reflexivity.
  - inversion W as [|? b ? w Hb Hw]; subst. cbn [sorted_records]. rewrite Hb. cbn [rbind].
    destruct (insert_sorted bs acc b C S) as (L & S'). replace (length acc <? search_pos bs acc b)%nat with false by (symmetry; apply Nat.ltb_ge; exact L).
    destruct (IH _ w S' Hw) as (l & E & Sl & Pl). exists l. split; [exact E|]. split; [exact Sl|].
    rewrite Pl, insert_perm. cbn [app]. apply Permutation_middle.
Qed.
Lemma all_written c ds : Forall (rdata_typed c) ds -> Forall (rdata_writable c) ds ->
  exists written, Forall2 (fun d b => rdata_to_bytes c d = Ok b) ds written.
Proof.
  induction ds as [|d ds IH]; intros T W; [exists []; constructor|].
  inversion T; inversion W; subst. destruct (IH ltac:(assumption) ltac:(assumption)) as (w & Hw).
  destruct (proj2 (rdata_bytes_iff c d ltac:(assumption)) ltac:(assumption)) as (b & Hb). exists (b :: w). constructor; assumption.
Qed.
Lemma be2_mod n : be 2 (n mod 65536) = be 2 n.
Proof. cbn [be app]. replace ((n mod 65536) / 256 mod 256) with (n / 256 mod 256) by lia. replace ((n mod 65536) mod 256) with (n mod 256) by lia. reflexivity. Qed.
Lemma member_eq s b : set_member_bytes s b = full_record s b.
Proof.
  unfold set_member_bytes, full_record, len16, u16. rewrite be2_mod. reflexivity.
Qed.
Lemma rrset_bytes_ok c bs s : search_contract bs -> Forall (rdata_typed c) (set_records s) -> Forall (rdata_writable c) (set_records s) ->
  exists ds, canonical_data c s ds /\ rrset_to_bytes c bs s = Ok (flat_map (full_record s) ds).
Proof.
  intros C T W. destruct (all_written c _ T W) as (w & Hw).
  destruct (sorted_records_ok c bs C (set_records s) [] w (SSorted_nil _) Hw) as (l & E & Sl & Pl).
  exists l. split; [exists w; auto|]. unfold rrset_to_bytes. rewrite E. cbn [rbind]. f_equal.
  apply flat_map_ext. apply member_eq.
Qed.
Lemma Forall2_fun {X Y} (R : X -> Y -> Prop) : (forall x y y', R x y -> R x y' -> y = y') ->
  forall l a b, Forall2 R l a -> Forall2 R l b -> a = b.
Proof.
  intros H l. induction l as [|x l IH]; intros a b A B; inversion A; inversion B; subst; [reflexivity|].
  f_equal; [eapply H; eassumption|]. apply IH; assumption.
Qed.
Lemma canonical_unique c s ds ds' : canonical_data c s ds -> canonical_data c s ds' -> ds = ds'.
Proof.
  intros (w & W & Pm & S) (w' & W' & P' & S'). assert (w = w').
  { apply (Forall2_fun (fun d b => rdata_to_bytes c d = Ok b)) with (l := set_records s); [|exact W|exact W'].
    intros d y y' A B. rewrite A in B. apply Ok_inj in B. exact B. }
  subst w'. apply sorted_unique; [exact S|exact S'|]. rewrite Pm, P'. reflexivity.
Qed.
Lemma rrset_bytes_eq c bs s ds : search_contract bs -> canonical_data c s ds ->
  rrset_to_bytes c bs s = Ok (flat_map (full_record s) ds).
Proof.
  intros C D. pose proof D as (w & W & Pm & S).
  destruct (sorted_records_ok c bs C (set_records s) [] w (SSorted_nil _) W) as (l & E & Sl & Pl). cbn [app] in Pl.
  unfold rrset_to_bytes. rewrite E. cbn [rbind]. f_equal. assert (l = ds) by (apply sorted_unique; [exact Sl|exact S|rewrite Pl, Pm; reflexivity]).
  subst l. apply flat_map_ext. apply member_eq.
Qed.
Lemma Forall2_perm {X Y} (R : X -> Y -> Prop) l l' : Permutation l l' -> forall a, Forall2 R l a -> exists a', Forall2 R l' a' /\ Permutation a a'.
Proof.
  induction 1 as [|x l l' Pm IH|x y l|l1 l2 l3 P1 IH1 P2 IH2]; intros a F.
  - inversion F; subst. exists []. split; constructor.
  - inversion F as [|? z ? w Hz Hw]; subst. destruct (IH _ Hw) as (a' & F' & P'). exists (z :: a'). split; constructor; assumption.
  - inversion F as [|? z ? w Hz Hw]; subst. inversion Hw as [|? z' ? w' Hz' Hw']; subst. exists (z' :: z :: w').
    split; [repeat constructor; assumption|constructor].
  - destruct (IH1 _ F) as (a' & F' & P'). destruct (IH2 _ F') as (a2 & F2 & P2'). exists a2. split; [exact F2|]. etransitivity; eassumption.
Qed.
Lemma canonical_perm c s l ds : Permutation (set_records s) l -> canonical_data c s ds -> canonical_data c (with_records s l) ds.
Proof.
  intros Pm (w & W & P' & S). destruct (Forall2_perm _ _ _ Pm _ W) as (w' & W' & Pw). exists w'.
  split; [exact W'|]. split; [rewrite P'; exact Pw|exact S].
Qed.
Lemma rrset_perm c bs bs' s l : search_contract bs -> search_contract bs' -> Forall (rdata_typed c) (set_records s) ->
  Forall (rdata_writable c) (set_records s) -> Permutation (set_records s) l ->
  rrset_to_bytes c bs' (with_records s l) = rrset_to_bytes c bs s.
Proof.
  intros C C' T W Pm. destruct (rrset_bytes_ok c bs s C T W) as (ds & D & E). rewrite E.
  rewrite (rrset_bytes_eq c bs' _ ds C' (canonical_perm _ _ _ _ Pm D)). reflexivity.
Qed.

(** ** Reordering *)
Lemma sort_insert_perm p l : Permutation (sort_insert p l) (p :: l).
Proof.
  induction l as [|q l IH]; [reflexivity|]. cbn [sort_insert]. destruct (leb_bytes (fst p) (fst q)); [reflexivity|].
  rewrite IH. apply perm_swap.
Qed.
Definition keyed_order (l : list (bytes * rdata)) : Prop := StronglySorted (fun p q => octets_le (fst p) (fst q)) l.
Lemma sort_insert_order p l : keyed_order l -> keyed_order (sort_insert p l).
Proof.
  unfold keyed_order. induction l as [|q l IH]; intros S; [repeat constructor|]. cbn [sort_insert].
  inversion S as [|? ? Sl Fq]; subst. destruct (leb_bytes (fst p) (fst q)) eqn:E.
  - apply leb_true in E. constructor; [exact S|]. constructor; [exact E|]. eapply Forall_impl; [|exact Fq].
    intros r H. eapply le_trans; eassumption.
  - apply leb_false in E. constructor; [apply IH, Sl|]. apply Forall_forall. intros r I.
    apply (Permutation_in r (sort_insert_perm p l)) in I. destruct I as [<-|I]; [exact E|]. rewrite Forall_forall in Fq. apply Fq, I.
Qed.
Lemma sort_all l : keyed_order (fold_right sort_insert [] l) /\ Permutation (fold_right sort_insert [] l) l.
Proof.
  induction l as [|p l (S & Pm)]; [split; constructor|]. cbn [fold_right]. split; [apply sort_insert_order, S|].
  rewrite sort_insert_perm. constructor. exact Pm.
Qed.
Lemma with_keys_ok c ds written : Forall2 (fun d b => rdata_to_bytes c d = Ok b) ds written ->
  with_keys c ds = Ok (combine written ds).
Proof. induction 1 as [|d b ds w H _ IH]; [reflexivity|]. cbn [with_keys combine]. rewrite H. cbn [rbind]. rewrite IH. reflexivity. Qed.
Lemma Forall2_len {X Y} (R : X -> Y -> Prop) a b : Forall2 R a b -> length a = length b.
Proof. induction 1; [reflexivity|]. cbn [length]. f_equal. assumption. Qed.
Lemma reorder_ok c s : Forall (rdata_typed c) (set_records s) -> Forall (rdata_writable c) (set_records s) ->
  exists l written, canonical_reorder c s = Ok (with_records s l) /\ Permutation l (set_records s) /\
    Forall2 (fun d b => rdata_to_bytes c d = Ok b) l written /\ in_order written.
Proof.
  intros T W. destruct (all_written c _ T W) as (w & Hw). unfold canonical_reorder.
  destruct (Nat.ltb_spec (length (set_records s)) 2) as [L|L].
  - exists (set_records s), w. split; [destruct s; reflexivity|]. split; [reflexivity|]. split; [exact Hw|].
    assert (length w < 2)%nat by (rewrite <- (Forall2_len _ _ _ Hw); exact L).
    destruct w as [|x [|y w]]; [constructor|repeat constructor|cbn [length] in *; lia].
  - rewrite (with_keys_ok c _ _ Hw). cbn [rbind]. destruct (sort_all (combine w (set_records s))) as (S & Pm).
    set (l := fold_right sort_insert [] (combine w (set_records s))) in *.
    exists (map snd l), (map fst l). split; [reflexivity|].
    assert (F : Forall (fun p => rdata_to_bytes c (snd p) = Ok (fst p)) (combine w (set_records s))).
    { clear -Hw. induction Hw; [constructor|]. cbn [combine]. constructor; assumption. }
    assert (M : map snd (combine w (set_records s)) = set_records s).
    { clear -Hw. induction Hw; [reflexivity|]. cbn [combine map]. f_equal. assumption. }
    split; [apply (Permutation_map snd) in Pm; rewrite M in Pm; exact Pm|]. split.
    + assert (F' : Forall (fun p => rdata_to_bytes c (snd p) = Ok (fst p)) l) by (rewrite Pm; exact F).
      clear -F'. induction F'; [constructor|]. cbn [map]. constructor; assumption.
    + clear -S. unfold keyed_order in S. unfold in_order. induction S as [|p l S IH F]; [constructor|]. cbn [map]. constructor; [exact IH|].
      apply Forall_map. exact F.
Qed.

Lemma reorder_bytes c bs s s' : search_contract bs -> Forall (rdata_typed c) (set_records s) -> Forall (rdata_writable c) (set_records s) ->
  canonical_reorder c s = Ok s' -> rrset_to_bytes c bs s' = rrset_to_bytes c bs s.
Proof.
  intros C T W E. destruct (reorder_ok c s T W) as (l & w & E' & Pm & _). rewrite E' in E. apply Ok_inj in E. subst s'.
  apply rrset_perm; try assumption. symmetry. exact Pm.
Qed.
(** The size that is announced. *)
Lemma full_record_length s b : length (full_record s b) = (fqdn_byte_size (set_name s) + 10 + length b)%nat.
Proof. unfold full_record. rewrite !app_length, !be_length, <- fqdn_byte_size_eq. lia. Qed.
Lemma rrset_size c bs s out : search_contract bs -> Forall (rdata_typed c) (set_records s) -> rrset_to_bytes c bs s = Ok out ->
  exists n, rrset_byte_size c s = Ok n /\
    Z.of_nat n = (Z.of_nat (length out) + fold_right (fun d k => size_error d + k) 0 (set_records s))%Z.
Proof.
  intros C T E.
  assert (W : exists w, Forall2 (fun d b => rdata_to_bytes c d = Ok b) (set_records s) w).
  { unfold rrset_to_bytes in E. apply rbind_ok in E. destruct E as (l & E & _). clear T. revert E. generalize (@nil bytes).
    induction (set_records s) as [|d ds IH]; intros acc E; [exists []; constructor|].
    cbn [sorted_records] in E. apply rbind_ok in E. destruct E as (b & Hb & E). destruct (length acc <? search_pos bs acc b)%nat; [discriminate|].
    apply IH in E. destruct E as (w & Hw). exists (b :: w). constructor; assumption. }
  destruct W as (w & W).
  destruct (sorted_records_ok c bs C (set_records s) [] w (SSorted_nil _) W) as (l & El & Sl & Pl). cbn [app] in Pl.
  unfold rrset_to_bytes in E. rewrite El in E. cbn [rbind] in E. apply Ok_inj in E.
  rewrite (flat_map_ext _ _ (member_eq s)) in E. subst out.
  assert (L : length (flat_map (full_record s) l) = length (flat_map (full_record s) w)).
  { clear -Pl. induction Pl; cbn [flat_map]; rewrite ?app_length; lia. }
  rewrite L. unfold rrset_byte_size. clear -T W. induction W as [|d b ds w Hb W IH]; [exists 0%nat; split; reflexivity|].
  inversion T as [|? ? Td Ts]; subst. destruct (IH Ts) as (n & En & Ln).
  destruct (rdata_size c d b Td Hb) as (k & Ek & Lk). cbn [sum_res]. rewrite Ek. cbn [rbind]. rewrite En. cbn [rbind].
  eexists. split; [reflexivity|]. cbn [flat_map fold_right]. rewrite app_length, full_record_length. lia.
Qed.

(** ** Keys *)
Lemma slice_next {X} (d : list X) q n : (q + n <= length d)%nat -> skipn q d = slice d q n ++ skipn (q + n) d.
Proof. intros H. unfold slice. rewrite <- (firstn_skipn n (skipn q d)) at 1. rewrite skipn_skipn'. reflexivity. Qed.
Lemma slice_rest {X} (d : list X) q : (q <= length d)%nat -> slice d q (length d - q) = skipn q d.
Proof. intros H. unfold slice. rewrite <- skipn_length. apply firstn_all. Qed.
Lemma slice_one (d : bytes) q : (q + 1 <= length d)%nat -> slice d q 1 = [unbe (slice d q 1)].
Proof.
  intros H. assert (L : length (slice d q 1) = 1%nat) by (apply slice_length, H). destruct (slice d q 1) as [|x [|y l]]; try discriminate L.
  reflexivity.
Qed.
Lemma slice_two (d : bytes) q : byte_list d -> (q + 2 <= length d)%nat -> slice d q 2 = be 2 (unbe (slice d q 2)).
Proof.
  intros B H. symmetry. assert (L : length (slice d q 2) = 2%nat) by (apply slice_length, H). rewrite <- L at 1.
  apply be_unbe. apply Forall_slice, B.
Qed.
Lemma rest_got d q v b : (q <= length d)%nat -> extract_rest (mkbuf d q) = (Ok v, b) -> v = skipn q d.
Proof. intros L E. unfold extract_rest in E. apply extract_bytes_ok in E. cbn [data pos] in E. unfold remaining in E. cbn [data pos] in E. destruct E as (_ & -> & _). apply slice_rest, L. Qed.
Lemma fst_ok {X Y} (p : res X * Y) v : fst p = Ok v -> exists b, p = (Ok v, b).
Proof. destruct p as [r b]. cbn [fst]. intros ->. eauto. Qed.
Lemma rsa_parts_iff pk e n : byte_list pk -> fst (rsa_key_parts (buf_from pk)) = Ok (e, n) <-> rsa_public pk e n.
Proof.
  intros B. split.
  - intros E. apply fst_ok in E. destruct E as (b & E). unfold rsa_key_parts, buf_from in E.
    apply bind_ok in E. destruct E as (f & b1 & E1 & E). unfold extract_u8 in E1. apply bind_ok in E1. destruct E1 as (fb & b2 & E1 & E2).
    apply extract_bytes_ok in E1. cbn [data pos] in E1. destruct E1 as (L1 & Ef & ->). cbn [ret] in E2. injection E2 as Ef2 <-. subst fb.
    assert (F1 : f < 256).
    { subst f. pose proof (unbe_bound (slice pk 0 1) (Forall_slice _ _ _ _ B)) as U. rewrite slice_length in U by exact L1. exact U. }
    assert (H0 : pk = f :: skipn 1 pk).
    { rewrite <- Ef2. change pk with (skipn 0 pk) at 1. rewrite (slice_next pk 0 1 L1), slice_one by exact L1. reflexivity. }
    apply bind_ok in E. destruct E as (len & b2 & E2 & E). apply bind_ok in E. destruct E as (eb & b3 & E3 & E).
    apply bind_ok in E. destruct E as (nb & b4 & E4 & E). cbn [ret] in E. injection E as <- <- <-.
    exists eb, nb. split; [reflexivity|]. split; [reflexivity|]. destruct (N.eqb_spec f 0) as [->|NZ].
    + right. unfold extract_u16 in E2. apply bind_ok in E2. destruct E2 as (lb & b5 & E2 & E5).
      apply extract_bytes_ok in E2. cbn [data pos] in E2. destruct E2 as (L2 & -> & ->). cbn [ret] in E5. injection E5 as El <-.
      apply extract_bytes_ok in E3. cbn [data pos] in E3. destruct E3 as (L3 & -> & ->).
      apply rest_got in E4; [|exact L3]. subst nb. rewrite slice_length by exact L3.
      assert (Ll : len < 65536).
      { subst len. pose proof (unbe_bound (slice pk (0 + 1) 2) (Forall_slice _ _ _ _ B)) as U. rewrite slice_length in U by exact L2. exact U. }
      split; [lia|]. rewrite H0 at 1. f_equal. rewrite (slice_next pk 1 2 L2), slice_two by assumption. change (0 + 1)%nat with 1%nat in El. rewrite El, N2Nat.id. f_equal.
      rewrite (slice_next pk (1 + 2) (N.to_nat len) L3). reflexivity.
    + left. cbn [ret] in E2. injection E2 as <- <-. apply extract_bytes_ok in E3. cbn [data pos] in E3. destruct E3 as (L3 & -> & ->).
      apply rest_got in E4; [|exact L3]. subst nb. rewrite slice_length by exact L3. split; [lia|]. rewrite H0 at 1. rewrite N2Nat.id. f_equal.
      rewrite (slice_next pk 1 (N.to_nat f) L3). reflexivity.
  - intros (eb & nb & -> & -> & [(L & ->)|(L & ->)]).
    + assert (R : reads [] [] rsa_key_parts (N.of_nat (length eb) :: eb ++ nb) (unbe eb, unbe nb)).
      { unfold rsa_key_parts. change (N.of_nat (length eb) :: eb ++ nb) with ([N.of_nat (length eb)] ++ eb ++ nb).
        eapply reads_bind; [apply reads_u8; lia|]. replace (N.of_nat (length eb) =? 0) with false by (symmetry; apply N.eqb_neq; lia).
        change (eb ++ nb) with ([] ++ eb ++ nb). eapply reads_bind; [apply reads_ret|]. eapply reads_bind; [apply reads_bytes; lia|].
        rewrite <- (app_nil_r nb) at 1. eapply reads_bind; [apply reads_rest|]. apply reads_ret. }
      unfold reads in R. cbn [app length] in R. rewrite app_nil_r in R. unfold buf_from. rewrite R. reflexivity.
    + assert (R : reads [] [] rsa_key_parts (0 :: be 2 (N.of_nat (length eb)) ++ eb ++ nb) (unbe eb, unbe nb)).
      { unfold rsa_key_parts. change (0 :: be 2 (N.of_nat (length eb)) ++ eb ++ nb) with ([0] ++ be 2 (N.of_nat (length eb)) ++ eb ++ nb).
        eapply reads_bind; [apply reads_u8; lia|]. cbn [N.eqb].
        eapply reads_bind; [apply reads_u16; lia|]. eapply reads_bind; [apply reads_bytes; lia|].
        rewrite <- (app_nil_r nb) at 1. eapply reads_bind; [apply reads_rest|]. apply reads_ret. }
      unfold reads in R. rewrite !app_nil_r in R. change (length (@nil N)) with 0%nat in R. rewrite app_nil_l in R. unfold buf_from. rewrite R. reflexivity.
Qed.
Lemma dsa_parts_iff pk p q g y : byte_list pk -> fst (dsa_key_parts (buf_from pk)) = Ok (p, q, g, y) <-> dsa_public pk p q g y.
Proof.
  intros B. split.
  - intros E. apply fst_ok in E. destruct E as (b & E). unfold dsa_key_parts, buf_from in E.
    apply bind_ok in E. destruct E as (f & b1 & E1 & E). unfold extract_u8 in E1. apply bind_ok in E1. destruct E1 as (fb & b2 & E1 & E2).
    apply extract_bytes_ok in E1. cbn [data pos] in E1. destruct E1 as (L1 & Ef & ->). cbn [ret] in E2. injection E2 as Ef2 <-. subst fb.
    assert (F1 : f < 256).
    { subst f. pose proof (unbe_bound (slice pk 0 1) (Forall_slice _ _ _ _ B)) as U. rewrite slice_length in U by exact L1. exact U. }
    assert (H0 : pk = f :: skipn 1 pk).
    { rewrite <- Ef2. change pk with (skipn 0 pk) at 1. rewrite (slice_next pk 0 1 L1), slice_one by exact L1. reflexivity. }
    apply bind_ok in E. destruct E as (qb & b2 & E2 & E). apply bind_ok in E. destruct E as (pb & b3 & E3 & E).
    apply bind_ok in E. destruct E as (gb & b4 & E4 & E). apply bind_ok in E. destruct E as (yb & b5 & E5 & E). cbn [ret] in E. injection E as <- <- <- <- _.
    apply extract_bytes_ok in E2. cbn [data pos] in E2. destruct E2 as (L2 & -> & ->).
    apply extract_bytes_ok in E3. cbn [data pos] in E3. destruct E3 as (L3 & -> & ->).
    apply extract_bytes_ok in E4. cbn [data pos] in E4. destruct E4 as (L4 & -> & ->).
    apply extract_bytes_ok in E5. cbn [data pos] in E5. destruct E5 as (L5 & -> & ->).
    exists (N.to_nat f), (slice pk (0 + 1) 20), (slice pk (0 + 1 + 20) (64 + N.to_nat f * 8)), (slice pk (0 + 1 + 20 + (64 + N.to_nat f * 8)) (64 + N.to_nat f * 8)),
      (slice pk (0 + 1 + 20 + (64 + N.to_nat f * 8) + (64 + N.to_nat f * 8)) (64 + N.to_nat f * 8)),
      (skipn (0 + 1 + 20 + (64 + N.to_nat f * 8) + (64 + N.to_nat f * 8) + (64 + N.to_nat f * 8)) pk).
    rewrite !slice_length by assumption. rewrite N2Nat.id. do 4 (split; [reflexivity|]). split; [lia|]. split; [reflexivity|]. do 3 (split; [lia|]).
    rewrite H0 at 1. f_equal. rewrite (slice_next pk 1 20 L2). f_equal. rewrite (slice_next pk (1 + 20) _ L3). f_equal.
    rewrite (slice_next pk _ _ L4). f_equal. rewrite (slice_next pk _ _ L5). reflexivity.
  - intros (t & qb & pb & gb & yb & rest & -> & -> & -> & -> & T & Lq & Lp & Lg & Ly & ->).
    assert (R : reads [] rest dsa_key_parts ([N.of_nat t] ++ qb ++ pb ++ gb ++ yb ++ []) (unbe pb, unbe qb, unbe gb, unbe yb)).
    { unfold dsa_key_parts. eapply reads_bind; [apply reads_u8; lia|]. eapply reads_bind; [apply reads_bytes; lia|]. eapply reads_bind; [apply reads_bytes; lia|].
      eapply reads_bind; [apply reads_bytes; lia|]. eapply reads_bind; [apply reads_bytes; lia|]. apply reads_ret. }
    unfold reads in R. rewrite app_nil_l in R. change (length (@nil N)) with 0%nat in R.
    replace (N.of_nat t :: qb ++ pb ++ gb ++ yb ++ rest) with (([N.of_nat t] ++ qb ++ pb ++ gb ++ yb ++ []) ++ rest)
      by (cbn [app]; rewrite !app_nil_r, <- !app_assoc; reflexivity).
    unfold buf_from. rewrite R. reflexivity.
Qed.
Lemma whole_key pk : fst (extract_rest (buf_from pk)) = Ok pk.
Proof. pose proof (reads_rest [] pk) as R. unfold reads in R. cbn [app length] in R. rewrite app_nil_r in R. unfold buf_from. rewrite R. reflexivity. Qed.

(** ** Verification *)
Lemma ok_or_ok {X} (o : option X) e v : ok_or o e = Ok v <-> o = Some v.
Proof. destruct o; cbn; split; intros H; try discriminate; [apply Ok_inj in H; subst; reflexivity|injection H as <-; reflexivity]. Qed.
Lemma rbind_iff {X Y} (r : res X) (f : X -> res Y) y : rbind r f = Ok y <-> exists a, r = Ok a /\ f a = Ok y.
Proof. split; [apply rbind_ok|]. intros (a & -> & H). exact H. Qed.
Lemma verify_with_iff x a pk m sig : byte_list pk ->
  verify_with x a pk (verify_hash x a m) sig = Ok true <-> accepts x pk m sig a.
Proof.
  intros B. split.
  - intros H. destruct a; cbn [verify_with verify_hash] in H; try discriminate H.
    all: try (rewrite whole_key in H; cbn [rbind] in H; constructor; try (apply Ok_inj in H; exact H); apply ok_or_ok in H; exact H).
    all: apply rbind_ok in H; destruct H as (k & E & H).
    2: { destruct k as [[[p q] g] y]. apply dsa_parts_iff in E; [|exact B]. apply ok_or_ok in H. econstructor; eassumption. }
    all: destruct k as [e n]; apply rsa_parts_iff in E; [|exact B]; apply ok_or_ok in H; cbn [fst snd] in H; econstructor; eassumption.
  - intros H. destruct H; cbn [verify_with verify_hash].
    all: try (rewrite whole_key; cbn [rbind]; try (f_equal; assumption); apply ok_or_ok; assumption).
    all: apply rbind_iff.
    5: { eexists. split; [apply dsa_parts_iff; eassumption|]. apply ok_or_ok. assumption. }
    all: eexists; split; [apply rsa_parts_iff; eassumption|]; apply ok_or_ok; assumption.
Qed.
Lemma verify_input_eq c bs r s ds : search_contract bs -> canonical_data c s ds ->
  verify_input c bs r s = Ok (signed_octets r s ds).
Proof. intros C D. unfold verify_input. rewrite (rrset_bytes_eq c bs s ds C D). reflexivity. Qed.
Lemma salg_eqb_eq a b : salg_eqb a b = true <-> a = b.
Proof. unfold salg_eqb. rewrite N.eqb_eq. destruct a, b; cbn; split; intros H; try reflexivity; discriminate. Qed.
Lemma verify_iff c x bs r k s ds : search_contract bs -> byte_list (dk_pk k) -> canonical_data c s ds ->
  rrsig_verify c x bs r k s = Ok true <-> rs_alg r = dk_alg k /\ accepts x (dk_pk k) (signed_octets r s ds) (rs_sig r) (dk_alg k).
Proof.
  intros C B D. unfold rrsig_verify. destruct (salg_eqb (rs_alg r) (dk_alg k)) eqn:E; cbn [negb].
  - apply salg_eqb_eq in E. rewrite (verify_input_eq c bs r s ds C D). cbn [rbind]. rewrite verify_with_iff by exact B. rewrite E. tauto.
  - split; [discriminate|]. intros (E' & _). apply salg_eqb_eq in E'. congruence.
Qed.

(** ** Signing *)
Lemma from_dnskey_ok c x bs seed k s inc exp key r : search_contract bs ->
  Forall (rdata_typed c) (set_records s) -> Forall (rdata_writable c) (set_records s) ->
  rrsig_from_dnskey c x bs seed k s inc exp key = Ok r ->
  exists ds tag i e, canonical_data c s ds /\ compute_key_tag c k = Ok tag /\ time_field inc = Ok i /\ time_field exp = Ok e /\
    r = mkRrsig (set_type s) (dk_alg k) (fqdn_label_count (set_name s)) (set_ttl s) e i tag (set_name s) (rs_sig r) /\
    sign_data x seed (dk_alg k) (signed_octets r s ds) key = Ok (rs_sig r).
Proof.
  intros C T W E. unfold rrsig_from_dnskey in E. apply rbind_ok in E. destruct E as (e & Ee & E). apply rbind_ok in E. destruct E as (i & Ei & E).
  apply rbind_ok in E. destruct E as (tag & Et & E). unfold calculate_signature in E. apply rbind_ok in E. destruct E as (set & Es & E).
  apply rbind_ok in E. destruct E as (sig & Eg & E). apply Ok_inj in E.
  destruct (rrset_bytes_ok c bs s C T W) as (ds & D & Ed). rewrite Ed in Es. apply Ok_inj in Es. subst set.
  exists ds, tag, i, e. split; [exact D|]. split; [exact Et|]. split; [exact Ei|]. split; [exact Ee|].
  cbn [rs_alg rs_type rs_labels rs_ttl rs_exp rs_inc rs_tag rs_signer] in E. subst r. cbn [rs_sig]. split; [reflexivity|].
  rewrite <- Eg. f_equal. cbn [rs_alg]. unfold signed_octets, rrsig_to_bytes. cbn [rs_alg rs_type rs_labels rs_ttl rs_exp rs_inc rs_tag rs_signer rs_sig].
  rewrite app_nil_r, <- !app_assoc. reflexivity.
Qed.
Lemma signed_verifies c x bs bs' seed k s inc exp key r : search_contract bs -> search_contract bs' ->
  Forall (rdata_typed c) (set_records s) -> Forall (rdata_writable c) (set_records s) -> byte_list (dk_pk k) ->
  key_pair x key (dk_pk k) (dk_alg k) -> rrsig_from_dnskey c x bs seed k s inc exp key = Ok r ->
  rrsig_verify c x bs' r k s = Ok true.
Proof.
  intros C C' T W B K E. destruct (from_dnskey_ok c x bs seed k s inc exp key r C T W E) as (ds & tag & i & e & D & _ & _ & _ & Er & Es).
  apply (verify_iff c x bs' r k s ds C' B D). split; [rewrite Er; reflexivity|].
  destruct K as [a e' n I R H|H|H|H|H]; cbn [sign_data] in Es.
  - cbn [In] in I. destruct I as [<-|[<-|[]]]; cbn [sign_data] in Es; apply ok_or_ok in Es; apply H in Es; econstructor; eassumption.
  - apply ok_or_ok, H in Es. constructor. exact Es.
  - apply ok_or_ok, H in Es. constructor. exact Es.
  - apply ok_or_ok, H in Es. constructor. exact Es.
  - apply ok_or_ok, H in Es. constructor. exact Es.
Qed.
Lemma rsa_sha2_never c x bs bs' seed k s inc exp key r e n opens : search_contract bs -> search_contract bs' ->
  Forall (rdata_typed c) (set_records s) -> Forall (rdata_writable c) (set_records s) -> byte_list (dk_pk k) ->
  rsa_public (dk_pk k) e n -> compares_unprefixed x e n opens ->
  (dk_alg k = RSA_SHA256 /\ signs_prefixed x RsaSha256 key opens \/ dk_alg k = RSA_SHA512 /\ signs_prefixed x RsaSha512 key opens) ->
  rrsig_from_dnskey c x bs seed k s inc exp key = Ok r -> rrsig_verify c x bs' r k s <> Ok true.
Proof.
  intros C C' T W B R U K E V. destruct (from_dnskey_ok c x bs seed k s inc exp key r C T W E) as (ds & tag & i & e' & D & _ & _ & _ & Er & Es).
  apply (verify_iff c x bs' r k s ds C' B D) in V. destruct V as (_ & V).
  assert (Q : forall m sig (h : rsa_hash) en e1, rsa_public (dk_pk k) e1 en -> rsa_verify x en e1 (digest_of x h m) sig = Some true ->
              opens sig = Some (digest_info h ++ digest_of x h m) -> False).
  { intros m sig h n1 e1 R1 V1 O. apply (rsa_parts_iff _ _ _ B) in R, R1. rewrite R in R1. injection R1 as <- <-.
    apply U in V1. rewrite O in V1. injection V1 as V1. apply (f_equal (@length N)) in V1. rewrite app_length in V1. destruct h; cbn [digest_info length] in V1; lia. }
  destruct K as [(A & S)|(A & S)]; rewrite A in *; cbn [sign_data] in Es.
  - destruct (ring_rsa_sign x RsaSha256 seed key (signed_octets r s ds)) as [| |sig] eqn:G; try discriminate Es. apply Ok_inj in Es. subst sig.
    apply S in G. inversion V; subst. apply (Q _ _ RsaSha256 _ _ ltac:(eassumption) ltac:(eassumption) G).
  - destruct (ring_rsa_sign x RsaSha512 seed key (signed_octets r s ds)) as [| |sig] eqn:G; try discriminate Es. apply Ok_inj in Es. subst sig.
    apply S in G. inversion V; subst. apply (Q _ _ RsaSha512 _ _ ltac:(eassumption) ltac:(eassumption) G).
Qed.

(** ** The signed octets determine what was signed *)
Lemma app_split {X} (a a' b b' : list X) : length a = length a' -> a ++ b = a' ++ b' -> a = a' /\ b = b'.
Proof.
  revert a'. induction a as [|x a IH]; intros [|x' a'] L E; try discriminate L; [split; [reflexivity|exact E]|].
  cbn [app] in E. injection E as -> E. injection L as L. destruct (IH a' L E) as (-> & ->). split; reflexivity.
Qed.
Lemma name_split f f' a b : fqdn_ok f -> fqdn_ok f' -> fqdn_to_bytes f ++ a = fqdn_to_bytes f' ++ b -> f = f' /\ a = b.
Proof.
  intros F F' E. pose proof (reads_fqdn f [] a F) as R. pose proof (reads_fqdn f' [] b F') as R'. unfold reads in R, R'.
  cbn [app length] in R, R'. rewrite E in R. rewrite R in R'. injection R' as -> R'. split; [reflexivity|].
  apply app_split in E; [apply E|]. exact R'.
Qed.
Lemma be_split k n n' a b : n < 256 ^ N.of_nat k -> n' < 256 ^ N.of_nat k -> be k n ++ a = be k n' ++ b -> n = n' /\ a = b.
Proof.
  intros L L' E. apply app_split in E; [|rewrite !be_length; reflexivity]. destruct E as (E & ->). split; [|reflexivity].
  eapply be_inj; eassumption.
Qed.
Lemma type_lt t : rtype_code t < 65536.
Proof. destruct t; reflexivity. Qed.

(** The types of the fields of a set. *)
Definition set_typed (s : rrset) : Prop := fqdn_ok (set_name s) /\ rclass_code (set_class s) < 65536 /\ U32 (set_ttl s).
Definition sig_typed (r : rrsig) : Prop := fqdn_ok (rs_signer r) /\ U8 (rs_labels r) /\ U32 (rs_ttl r) /\ U32 (rs_exp r) /\ U32 (rs_inc r) /\ U16 (rs_tag r).
Lemma record_split s s' b b' x x' : set_typed s -> set_typed s' -> short16 b -> short16 b' ->
  full_record s b ++ x = full_record s' b' ++ x' ->
  (set_name s = set_name s' /\ set_type s = set_type s' /\ rclass_code (set_class s) = rclass_code (set_class s') /\ set_ttl s = set_ttl s') /\ b = b' /\ x = x'.
Proof.
  intros (F & K & T) (F' & K' & T') L L' E. unfold full_record in E. rewrite <- !app_assoc in E.
  apply name_split in E; [|assumption|assumption]. destruct E as (En & E).
  apply be_split in E; [|apply type_lt|apply type_lt]. destruct E as (Et & E).
  apply be_split in E; [|assumption|assumption]. destruct E as (Ec & E).
  apply be_split in E; [|assumption|assumption]. destruct E as (El & E).
  unfold short16 in L, L'. apply be_split in E; [|change (256 ^ N.of_nat 2) with 65536; lia|change (256 ^ N.of_nat 2) with 65536; lia].
  destruct E as (Eb & E). apply app_split in E; [|lia]. destruct E as (-> & ->).
  apply BitmapFacts.rtype_code_inj in Et. tauto.
Qed.
Lemma records_split s s' ds : set_typed s -> set_typed s' -> Forall short16 ds -> forall ds', Forall short16 ds' ->
  flat_map (full_record s) ds = flat_map (full_record s') ds' ->
  ds = ds' /\ (ds <> [] -> set_name s = set_name s' /\ set_type s = set_type s' /\ rclass_code (set_class s) = rclass_code (set_class s') /\ set_ttl s = set_ttl s').
Proof.
  intros T T' L. induction L as [|b ds Lb L IH]; intros [|b' ds'] L' E.
  - split; [reflexivity|]. intros H. contradiction H. reflexivity.
  - cbn [flat_map] in E. symmetry in E. apply (f_equal (@length N)) in E. rewrite app_length, full_record_length in E. cbn [length] in E. lia.
  - cbn [flat_map] in E. apply (f_equal (@length N)) in E. rewrite app_length, full_record_length in E. cbn [length] in E. lia.
  - cbn [flat_map] in E. inversion L' as [|? ? Lb' Ls']; subst. apply record_split in E; try assumption. destruct E as (H & -> & E).
    apply IH in E; [|assumption]. destruct E as (-> & _). split; [reflexivity|]. intros _. exact H.
Qed.
Lemma signed_determines r r' s s' ds ds' : sig_typed r -> sig_typed r' -> set_typed s -> set_typed s' -> Forall short16 ds -> Forall short16 ds' ->
  signed_octets r s ds = signed_octets r' s' ds' ->
  (rs_type r = rs_type r' /\ rs_alg r = rs_alg r' /\ rs_labels r = rs_labels r' /\ rs_ttl r = rs_ttl r' /\ rs_exp r = rs_exp r' /\ rs_inc r = rs_inc r' /\
   rs_tag r = rs_tag r' /\ rs_signer r = rs_signer r') /\
  ds = ds' /\ (ds <> [] -> set_name s = set_name s' /\ set_type s = set_type s' /\ rclass_code (set_class s) = rclass_code (set_class s') /\ set_ttl s = set_ttl s').
Proof.
  intros (F & A & B & D & G & H) (F' & A' & B' & D' & G' & H') T T' L L' E. unfold signed_octets in E.
  apply be_split in E; [|apply type_lt|apply type_lt]. destruct E as (Et & E).
  apply app_split in E; [|reflexivity]. destruct E as (E0 & E). injection E0 as Ea El.
  apply be_split in E; [|assumption|assumption]. destruct E as (E1 & E).
  apply be_split in E; [|assumption|assumption]. destruct E as (E2 & E).
  apply be_split in E; [|assumption|assumption]. destruct E as (E3 & E).
  apply be_split in E; [|assumption|assumption]. destruct E as (E4 & E).
  apply name_split in E; [|assumption|assumption]. destruct E as (E5 & E). apply records_split in E; try assumption.
  apply BitmapFacts.rtype_code_inj in Et. assert (rs_alg r = rs_alg r') by (revert Ea; destruct (rs_alg r), (rs_alg r'); cbn; congruence). tauto.
Qed.

(** ** Key tags *)
Lemma weighted_bound l : byte_list l -> forall even, weighted_sum even l <= 65280 * N.of_nat (length l).
Proof.
  induction 1 as [|b l Hb _ IH]; intros even; [cbn; lia|]. cbn [weighted_sum length]. specialize (IH (negb even)). cbv beta in Hb. destruct even; lia.
Qed.
(** Two octets together weigh at most 65535. *)
Lemma weighted_pairs l : byte_list l -> forall n, (length l <= 2 * n)%nat -> weighted_sum true l <= 65535 * N.of_nat n.
Proof.
  intros B n. revert l B. induction n as [|n IH]; intros l B L; [destruct l; [cbn; lia|cbn [length] in L; lia]|].
  destruct B as [|b l Hb B]; [cbn; lia|]. destruct B as [|b' l Hb' B]; [cbn; lia|].
  cbn [weighted_sum negb]. cbn [length] in L. specialize (IH l B ltac:(lia)). lia.
Qed.
Lemma key_tag_sum_ok c l : byte_list l -> forall even acc, acc + weighted_sum even l < 4294967296 ->
  key_tag_sum c even l acc = Ok (acc + weighted_sum even l).
Proof.
  induction 1 as [|b l Hb _ IH]; intros even acc H; cbn [key_tag_sum weighted_sum] in *; [f_equal; lia|].
  rewrite N.shiftl_mul_pow2. change (2 ^ 8) with 256. unfold uadd, M32.
  destruct (N.ltb_spec (acc + (if even then b * 256 else b)) 4294967296); [|lia]. cbn [rbind]. rewrite IH by lia. f_equal. lia.
Qed.
Lemma dnskey_rdata_eq k : dnskey_to_bytes k = dnskey_rdata k.
Proof. unfold dnskey_to_bytes, dnskey_rdata. destruct (dk_zone k), (dk_sep k); reflexivity. Qed.
Lemma dnskey_rdata_bytes k : U8 (dk_protocol k) -> byte_list (dk_pk k) -> byte_list (dnskey_rdata k).
Proof.
  intros U B. unfold dnskey_rdata. cbn [app]. repeat apply Forall_cons; cbv beta; try exact B; try exact U; [destruct (dk_zone k)|destruct (dk_sep k)|destruct (dk_alg k)]; reflexivity.
Qed.
Lemma land_16 n : N.land n 65535 = n mod 65536.
Proof. change 65535 with (N.ones 16). apply N.land_ones. Qed.
Lemma key_tag_gen c k : U8 (dk_protocol k) -> byte_list (dk_pk k) -> weighted_sum true (dnskey_rdata k) + 65535 < 4294967296 ->
  compute_key_tag c k = Ok (rfc_key_tag (dnskey_rdata k)).
Proof.
  intros U B H. unfold compute_key_tag. rewrite dnskey_rdata_eq, key_tag_sum_ok; [|apply dnskey_rdata_bytes; assumption|lia].
  cbn [rbind]. rewrite N.add_0_l, land_16, N.shiftr_div_pow2. change (2 ^ 16) with 65536. unfold uadd, M32, rfc_key_tag.
  set (a := weighted_sum true (dnskey_rdata k)) in *.
  destruct (N.ltb_spec (a + a / 65536 mod 65536) 4294967296); [|lia]. cbn [rbind]. rewrite land_16. reflexivity.
Qed.
Lemma key_tag_ok c k : U8 (dk_protocol k) -> byte_list (dk_pk k) -> N.of_nat (length (dk_pk k)) <= 131064 ->
  compute_key_tag c k = Ok (rfc_key_tag (dnskey_rdata k)).
Proof.
  intros U B L. apply key_tag_gen; [assumption|assumption|].
  pose proof (weighted_pairs (dnskey_rdata k) (dnskey_rdata_bytes k U B) (N.to_nat 65534)) as H.
  unfold dnskey_rdata in H at 1. rewrite app_length in H. cbn [length] in H. lia.
Qed.
(** Keys of 131074 octets and more can overflow. *)
Lemma weighted_repeat n : weighted_sum true (repeat 255 (2 * n)) = 65535 * N.of_nat n.
Proof.
  induction n as [|n IH]; [reflexivity|]. replace (2 * S n)%nat with (S (S (2 * n))) by lia. cbn [repeat weighted_sum negb]. rewrite IH. lia.
Qed.
Lemma key_tag_sum_panic c l : ovf c = true -> forall even acc, acc < 4294967296 -> 4294967296 <= acc + weighted_sum even l ->
  key_tag_sum c even l acc = Panic.
Proof.
  intros O. induction l as [|b l IH]; intros even acc A H; cbn [key_tag_sum weighted_sum] in *; [lia|].
  rewrite N.shiftl_mul_pow2. change (2 ^ 8) with 256. unfold uadd, M32.
  destruct (N.ltb_spec (acc + (if even then b * 256 else b)) 4294967296).
  - cbn [rbind]. apply IH; lia.
  - rewrite O. reflexivity.
Qed.
Lemma long_key_panics c n : ovf c = true -> 65538 <= N.of_nat n ->
  compute_key_tag c (mkDnskey true true 3 ED448 (repeat 255 (2 * n))) = Panic.
Proof.
  intros O L. unfold compute_key_tag. rewrite dnskey_rdata_eq. rewrite key_tag_sum_panic; [reflexivity|exact O|lia|].
  unfold dnskey_rdata. cbn [app dk_zone dk_sep dk_protocol dk_alg dk_pk salg_code weighted_sum negb]. rewrite weighted_repeat. lia.
Qed.
Lemma long_key_bytes n : byte_list (repeat 255 n).
Proof. apply Forall_forall. intros y I. apply repeat_spec in I. subst y. reflexivity. Qed.
Lemma key_tag_panics c : ovf c = true -> exists k, U8 (dk_protocol k) /\ byte_list (dk_pk k) /\ compute_key_tag c k = Panic.
Proof.
  intros O. assert (X : exists n, 65538 <= N.of_nat n) by (exists (N.to_nat 65538); rewrite N2Nat.id; apply N.le_refl).
  destruct X as (n & L). exists (mkDnskey true true 3 ED448 (repeat 255 (2 * n))). split; [reflexivity|]. split; [apply long_key_bytes|].
  apply long_key_panics; assumption.
Qed.

(** What is computed in every build, for keys of any size. *)
Lemma key_tag_sum_wrap c l : ovf c = false -> forall even acc, acc < 4294967296 ->
  key_tag_sum c even l acc = Ok ((acc + weighted_sum even l) mod 4294967296).
Proof.
  intros O. induction l as [|b l IH]; intros even acc A; cbn [key_tag_sum weighted_sum]; [rewrite N.add_0_r, N.mod_small by exact A; reflexivity|].
  rewrite N.shiftl_mul_pow2. change (2 ^ 8) with 256. unfold uadd, M32. rewrite O. set (w := if even then b * 256 else b).
  destruct (N.ltb_spec (acc + w) 4294967296); cbn [rbind].
  - rewrite IH by assumption. f_equal. f_equal. lia.
  - rewrite IH by (apply N.mod_lt; discriminate). f_equal. rewrite N.add_mod_idemp_l by discriminate. f_equal. lia.
Qed.
Lemma key_tag_exact c k : U8 (dk_protocol k) -> byte_list (dk_pk k) ->
  compute_key_tag c k = let ac := weighted_sum true (dnskey_rdata k) in
    if ovf c && (4294967296 <=? ac + ac / 65536 mod 65536) then Panic else Ok (rfc_key_tag (dnskey_rdata k)).
Proof.
  intros U B. cbv zeta. unfold compute_key_tag, rfc_key_tag. rewrite dnskey_rdata_eq. pose proof (dnskey_rdata_bytes k U B) as DB.
  set (a := weighted_sum true (dnskey_rdata k)). destruct (ovf c) eqn:O; cbn [andb].
  - destruct (N.leb_spec 4294967296 a) as [L|L].
    + rewrite key_tag_sum_panic; [|exact O|lia|exact L]. destruct (N.leb_spec 4294967296 (a + a / 65536 mod 65536)); [reflexivity|lia].
    + rewrite key_tag_sum_ok by (exact DB || exact L). fold a. cbn [rbind]. rewrite N.add_0_l, land_16, N.shiftr_div_pow2. change (2 ^ 16) with 65536.
      unfold uadd, M32. rewrite O. destruct (N.ltb_spec (a + a / 65536 mod 65536) 4294967296), (N.leb_spec 4294967296 (a + a / 65536 mod 65536)); try lia; cbn [rbind]; [|reflexivity].
      rewrite land_16. reflexivity.
  - rewrite key_tag_sum_wrap by (exact O || reflexivity). fold a. cbn [rbind]. rewrite N.add_0_l, land_16, N.shiftr_div_pow2. change (2 ^ 16) with 65536.
    unfold uadd, M32. rewrite O. clearbody a. clear. destruct (N.ltb_spec (a mod 4294967296 + a mod 4294967296 / 65536 mod 65536) 4294967296); cbn [rbind]; rewrite land_16; f_equal; lia.
Qed.

(** ** Times *)
Lemma time_ok t : (0 <= t)%Z -> time_field t = Ok (Z.to_N (t / 1000000) mod 4294967296).
Proof. intros H. unfold time_field, u32. replace (t <? 0)%Z with false by (symmetry; apply Z.ltb_ge; exact H). reflexivity. Qed.
Lemma time_err t : (t < 0)%Z -> time_field t = Err InvalidDnsSecSignatureTimespan.
Proof. intros H. unfold time_field. replace (t <? 0)%Z with true by (symmetry; apply Z.ltb_lt; exact H). reflexivity. Qed.
Lemma time_wrong t v : (second <= t < 4294967 * second)%Z -> time_field t = Ok v -> v <> rfc_time t.
Proof.
  intros H E. rewrite time_ok in E by (unfold second in H; lia). apply Ok_inj in E. subst v. unfold rfc_time, second in *. 
  rewrite !N.mod_small by lia. intros E. apply (f_equal Z.of_N) in E. rewrite !Z2N.id in E by lia. lia.
Qed.

(** ** DS records *)
Lemma ds_ok c x owner k d : U8 (dk_protocol k) -> byte_list (dk_pk k) -> N.of_nat (length (dk_pk k)) <= 131064 ->
  ds_from_dnskey c x owner k d = Ok (mkDs (rfc_key_tag (dnskey_rdata k)) (dk_alg k) d (hash_data x d (fqdn_to_bytes owner ++ dnskey_rdata k))).
Proof. intros U B L. unfold ds_from_dnskey. rewrite key_tag_ok by assumption. cbn [rbind]. rewrite dnskey_rdata_eq. reflexivity. Qed.

(** ** Hexadecimal text *)
Lemma hex_digit_ok n : n < 16 -> nth_error hex_alphabet (N.to_nat n) = Some (hex_digit n).
Proof.
  intros H. assert (n = 0 \/ n = 1 \/ n = 2 \/ n = 3 \/ n = 4 \/ n = 5 \/ n = 6 \/ n = 7 \/ n = 8 \/ n = 9 \/ n = 10 \/ n = 11 \/ n = 12 \/ n = 13 \/ n = 14 \/ n = 15) as D by lia.
  repeat (destruct D as [->|D]; [reflexivity|]). subst n. reflexivity.
Qed.
Lemma hex_ok x : byte_list (ds_digest x) -> hex_denotes (hex_digest x) (ds_digest x).
Proof.
  unfold hex_digest. induction 1 as [|b l H B IH]; [constructor|]. cbn [flat_map app]. cbv beta in H.
  replace b with (16 * N.of_nat (N.to_nat (b / 16)) + N.of_nat (N.to_nat (b mod 16))) at 3 by lia.
  constructor; [apply hex_digit_ok; lia|apply hex_digit_ok; lia|exact IH].
Qed.
Lemma hex_alphabet_inj i j a : nth_error hex_alphabet i = Some a -> nth_error hex_alphabet j = Some a -> i = j.
Proof.
  intros E1 E2. apply (proj1 (NoDup_nth_error hex_alphabet)); [|apply nth_error_Some; rewrite E1; discriminate|congruence].
  unfold hex_alphabet. repeat (constructor; [cbn [In]; intuition discriminate|]). constructor.
Qed.
Lemma hex_unique s d : hex_denotes s d -> forall d', hex_denotes s d' -> d = d'.
Proof.
  induction 1 as [|i j a b s d Ei Ej H IH]; intros d' H'; inversion H' as [|i' j' a' b' s' d2 Ei' Ej' H2]; subst; [reflexivity|].
  rewrite (hex_alphabet_inj _ _ _ Ei Ei'), (hex_alphabet_inj _ _ _ Ej Ej'), (IH _ H2). reflexivity.
Qed.
Lemma hex_length x : length (hex_digest x) = (2 * length (ds_digest x))%nat.
Proof. unfold hex_digest. induction (ds_digest x) as [|b l IH]; [reflexivity|]. cbn [flat_map app length]. rewrite IH. lia. Qed.

(** ** Algorithms that never sign, and DSA *)
Lemma unsupported c x bs seed k s inc exp key r : In (dk_alg k) [Indirect; PrivateDns; PrivateOid] ->
  rrsig_from_dnskey c x bs seed k s inc exp key <> Ok r /\ forall y b, rs_alg y = dk_alg k -> rrsig_verify c x bs y k s = Ok b -> b = false.
Proof.
  intros I. split.
  - intros E. unfold rrsig_from_dnskey in E. apply rbind_ok in E. destruct E as (e & _ & E). apply rbind_ok in E. destruct E as (i & _ & E).
    apply rbind_ok in E. destruct E as (t & _ & E). unfold calculate_signature in E. apply rbind_ok in E. destruct E as (o & _ & E).
    apply rbind_ok in E. destruct E as (g & E & _). cbn [rs_alg] in E. destruct I as [I|[I|[I|[]]]]; rewrite <- I in E; discriminate.
  - intros y b Ea E. unfold rrsig_verify in E. destruct (negb _); [discriminate|]. apply rbind_ok in E. destruct E as (m & _ & E). rewrite Ea in E.
    destruct I as [I|[I|[I|[]]]]; rewrite <- I in E; cbn [verify_with] in E; apply Ok_inj in E; auto.
Qed.
Lemma dsa_never c x bs bs' seed k s inc exp key r b : search_contract bs -> search_contract bs' ->
  Forall (rdata_typed c) (set_records s) -> Forall (rdata_writable c) (set_records s) -> dk_alg k = DSA_SHA1 -> wants_der x ->
  rrsig_from_dnskey c x bs seed k s inc exp key = Ok r -> nth_error (rs_sig r) 0 <> Some 48 -> rrsig_verify c x bs' r k s <> Ok b.
Proof.
  intros C C' T W K D E N V. unfold rrsig_verify in V. destruct (salg_eqb (rs_alg r) (dk_alg k)) eqn:Ea; cbn [negb] in V; [|discriminate].
  apply salg_eqb_eq in Ea. apply rbind_ok in V. destruct V as (m & _ & V). rewrite Ea, K in V. cbn [verify_with] in V.
  apply rbind_ok in V. destruct V as ([[[p q] g] y] & _ & V). apply ok_or_ok in V. apply D in V. destruct V as (rest & V). rewrite V in N. apply N. reflexivity.
Qed.
