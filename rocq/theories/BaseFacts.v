(** * Lemmas about Base.v. *)
From Verif Require Import Base.
From Coq Require Import Lia ZifyBool ZifyNat ZifyN.
Ltac Zify.zify_post_hook ::= Z.div_mod_to_equations.

Definition byte_list (l : bytes) : Prop := Forall (fun b => b < 256) l.

Lemma be_length k n : length (be k n) = k.
Proof. revert n; induction k; intros n; cbn [be]; [reflexivity|].
  rewrite app_length, IHk; cbn [length]; lia. Qed.

Lemma be_bytes k n : byte_list (be k n).
Proof. revert n; induction k; intros n; cbn [be]; [constructor|].
  apply Forall_app; split; [apply IHk|].
  constructor; [|constructor]. apply N.mod_lt; lia. Qed.

Lemma unbe_app a b : unbe (a ++ [b]) = unbe a * 256 + b.
Proof. unfold unbe. rewrite fold_left_app. reflexivity. Qed.

Lemma unbe_be k n : n < 256 ^ N.of_nat k -> unbe (be k n) = n.
Proof.
  revert n; induction k; intros n Hn; cbn [be].
  - cbn in Hn |- *. lia.
  - rewrite unbe_app, IHk.
    + pose proof (N.div_mod n 256). lia.
    + rewrite Nat2N.inj_succ, N.pow_succ_r' in Hn.
      apply N.div_lt_upper_bound; lia.
Qed.

Lemma unbe_be1 n : n < 256 -> unbe (be 1 n) = n.
Proof. intros; apply unbe_be; cbn; lia. Qed.
Lemma unbe_be2 n : n < 65536 -> unbe (be 2 n) = n.
Proof. intros; apply unbe_be; cbn; lia. Qed.
Lemma unbe_be4 n : n < 4294967296 -> unbe (be 4 n) = n.
Proof. intros; apply unbe_be; cbn; lia. Qed.

Lemma rev_ind_len {X} (Q : list X -> Prop) :
  Q [] -> (forall l x, Q l -> Q (l ++ [x])) -> forall l, Q l.
Proof. intros H0 H l. rewrite <- (rev_involutive l). induction (rev l); cbn; auto. Qed.

Lemma unbe_bound l : byte_list l -> unbe l < 256 ^ N.of_nat (length l).
Proof.
  induction l using rev_ind_len; intros H.
  - cbn. lia.
  - apply Forall_app in H as [H1 H2]. inversion H2; subst.
    rewrite unbe_app, app_length; cbn [length].
    replace (length l + 1)%nat with (S (length l)) by lia.
    rewrite Nat2N.inj_succ, N.pow_succ_r'. specialize (IHl H1). lia.
Qed.

Lemma be_unbe l : byte_list l -> be (length l) (unbe l) = l.
Proof.
  induction l using rev_ind_len; intros H; [reflexivity|].
  apply Forall_app in H as [H1 H2]. inversion H2; subst.
  rewrite app_length; cbn [length]. replace (length l + 1)%nat with (S (length l)) by lia.
  cbn [be]. rewrite unbe_app.
  replace ((unbe l * 256 + x) / 256) with (unbe l).
  2:{ rewrite N.div_add_l by lia. rewrite N.div_small by assumption. lia. }
  replace ((unbe l * 256 + x) mod 256) with x.
  2:{ rewrite N.add_comm, N.mod_add by lia. symmetry; apply N.mod_small; assumption. }
  rewrite IHl by assumption. reflexivity.
Qed.

Lemma be_inj k a b : a < 256 ^ N.of_nat k -> b < 256 ^ N.of_nat k -> be k a = be k b -> a = b.
Proof. intros Ha Hb E. rewrite <- (unbe_be k a), <- (unbe_be k b) by assumption. congruence. Qed.

Lemma len8_id n : (n < 256)%nat -> len8 n = N.of_nat n.
Proof. intros; unfold len8, u8; apply N.mod_small; lia. Qed.
Lemma len16_id n : N.of_nat n < 65536 -> len16 n = N.of_nat n.
Proof. intros; unfold len16, u16; apply N.mod_small; lia. Qed.
Lemma len8_lt n : len8 n < 256.
Proof. unfold len8, u8. apply N.mod_lt; lia. Qed.
Lemma len16_lt n : len16 n < 65536.
Proof. unfold len16, u16. apply N.mod_lt; lia. Qed.

(** ** [assoc] *)
Lemma assoc_in {X} n (t : list (N * X)) a : assoc n t = Some a -> In (n, a) t.
Proof.
  induction t as [|[k x] t IH]; cbn; [discriminate|].
  destruct (N.eqb_spec n k); intros E.
  - inversion E; subst; auto.
  - auto.
Qed.

(** ** [res] *)
Lemma rbind_ok {X Y} (r : res X) (f : X -> res Y) y :
  rbind r f = Ok y -> exists x, r = Ok x /\ f x = Ok y.
Proof. destruct r; cbn; try discriminate. eauto. Qed.

(** ** Slices *)
Lemma slice_exact {X} (pre bs suf : list X) :
  slice (pre ++ bs ++ suf) (length pre) (length bs) = bs.
Proof.
  unfold slice. rewrite skipn_app, skipn_all, Nat.sub_diag. cbn [app skipn].
  rewrite firstn_app, firstn_all, Nat.sub_diag. cbn [firstn]. apply app_nil_r.
Qed.

Lemma slice_length {X} (l : list X) p n : (p + n <= length l)%nat -> length (slice l p n) = n.
Proof. intros. unfold slice. rewrite firstn_length, skipn_length. lia. Qed.

Lemma skipn_skipn' {X} (a b : nat) (l : list X) : skipn a (skipn b l) = skipn (b + a) l.
Proof. revert l; induction b; intros l; cbn [skipn Nat.add]; [reflexivity|].
  destruct l; [destruct a; reflexivity|apply IHb]. Qed.

Lemma slice_split {X} (l : list X) p n :
  (p + n <= length l)%nat -> l = firstn p l ++ slice l p n ++ skipn (p + n) l.
Proof.
  intros. unfold slice. rewrite <- (firstn_skipn p l) at 1. f_equal.
  rewrite <- (firstn_skipn n (skipn p l)) at 1. f_equal.
  rewrite skipn_skipn'. reflexivity.
Qed.

Lemma Forall_slice {X} (Q : X -> Prop) l p n : Forall Q l -> Forall Q (slice l p n).
Proof.
  intros H. unfold slice. rewrite Forall_forall in *. intros x Hx. apply H.
  rewrite <- (firstn_skipn p l). apply in_or_app. right.
  rewrite <- (firstn_skipn n (skipn p l)). apply in_or_app. left. assumption.
Qed.

(** ** Sorted sets *)
Section SETS.
Context {X : Type} (key : X -> N).

(** Strictly increasing keys: the invariant of a BTreeSet's element list. *)
Fixpoint sorted_by (s : list X) : Prop :=
  match s with
  | [] => True
  | x :: s' => Forall (fun y => key x < key y) s' /\ sorted_by s'
  end.

Lemma set_insert_Forall (Q : X -> Prop) x s : Q x -> Forall Q s -> Forall Q (set_insert key x s).
Proof.
  intros Hx. induction 1 as [|y s Hy Hs IH]; cbn; [repeat constructor; assumption|].
  destruct (key x <? key y); [repeat constructor; assumption|].
  destruct (key x =? key y); constructor; assumption.
Qed.

Lemma set_insert_sorted x s : sorted_by s -> sorted_by (set_insert key x s).
Proof.
  induction s as [|y s IH]; cbn; [repeat constructor|].
  intros [H1 H2]. destruct (N.ltb_spec (key x) (key y)).
  - cbn. repeat split; try assumption. constructor; [assumption|].
    eapply Forall_impl; [|exact H1]. cbn; intros; lia.
  - destruct (N.eqb_spec (key x) (key y)); cbn; [auto|].
    split; [|auto]. apply set_insert_Forall; [lia|assumption].
Qed.

(** Inserting an element larger than all present ones appends it. *)
Lemma set_insert_last x s : Forall (fun y => key y < key x) s -> set_insert key x s = s ++ [x].
Proof.
  induction 1 as [|y s Hy Hs IH]; cbn; [reflexivity|].
  destruct (N.ltb_spec (key x) (key y)); [lia|].
  destruct (N.eqb_spec (key x) (key y)); [lia|]. rewrite IH; reflexivity.
Qed.

Lemma sorted_by_app a b :
  sorted_by (a ++ b) <-> sorted_by a /\ sorted_by b /\ Forall (fun x => Forall (fun y => key x < key y) b) a.
Proof.
  induction a as [|x a IH]; cbn; [intuition|].
  rewrite Forall_app, IH, Forall_cons_iff. intuition.
Qed.
End SETS.
