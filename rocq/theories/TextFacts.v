(** * The text form of names (Fqdn.fqdn_new, fqdn_display) and the name predicates. *)
From Verif Require Import Base Utf8 Buffer Fqdn BaseFacts Utf8Facts FqdnFacts.
From Coq Require Import Lia ZifyBool ZifyNat ZifyN.
Ltac Zify.zify_post_hook ::= Z.div_mod_to_equations.

Lemma split_dot_cur cur s : split_dot cur s =
  match split_dot [] s with [] => [cur] | l :: r => (cur ++ l) :: r end.
Proof.
  revert cur. induction s as [|b s IH]; intros cur; cbn [split_dot].
  - rewrite app_nil_r. reflexivity.
  - destruct (b =? 46); [rewrite app_nil_r; reflexivity|].
    rewrite (IH (cur ++ [b])), (IH ([] ++ [b])).
    destruct (split_dot [] s); [reflexivity|]. rewrite <- !app_assoc. reflexivity.
Qed.

Lemma split_dot_nonnil cur s : split_dot cur s <> [].
Proof. revert cur. induction s as [|b s IH]; intros cur; cbn; [discriminate|]. destruct (b =? 46); [discriminate|apply IH]. Qed.

(** A dot separates. *)
Lemma split_dot_app a b : forall cur, split_dot cur (a ++ 46 :: b) = split_dot cur a ++ split_dot [] b.
Proof.
  induction a as [|x a IH]; intros cur; cbn [app split_dot].
  - reflexivity.
  - destruct (x =? 46); cbn [app]; [f_equal|]; apply IH.
Qed.

Lemma fqdn_new_app a b : fqdn_new (a ++ 46 :: b) = fqdn_new a ++ fqdn_new b.
Proof. unfold fqdn_new. rewrite split_dot_app, filter_app. reflexivity. Qed.

Lemma split_dot_plain s : forall cur, ~ In 46 s -> split_dot cur s = [cur ++ s].
Proof.
  induction s as [|b s IH]; intros cur H; cbn [split_dot].
  - rewrite app_nil_r. reflexivity.
  - destruct (N.eqb_spec b 46) as [->|]; [exfalso; apply H; left; reflexivity|].
    rewrite IH by (intros X; apply H; right; exact X). rewrite <- app_assoc. reflexivity.
Qed.

Lemma fqdn_new_label s : s <> [] -> ~ In 46 s -> fqdn_new s = [s].
Proof.
  intros H1 H2. unfold fqdn_new. rewrite split_dot_plain by assumption. cbn [app filter].
  destruct s; [congruence|reflexivity].
Qed.

Lemma fqdn_new_nil : fqdn_new [] = [].
Proof. reflexivity. Qed.

Lemma split_dot_labels s : forall cur, ~ In 46 cur -> Forall (fun l => ~ In 46 l) (split_dot cur s).
Proof.
  induction s as [|b s IH]; intros cur H; cbn [split_dot].
  - auto.
  - destruct (N.eqb_spec b 46).
    + constructor; [assumption|]. apply IH. intros [].
    + apply IH. rewrite in_app_iff. intros [X|[X|[]]]; [contradiction|congruence].
Qed.

Lemma fqdn_new_labels s : Forall (fun l => l <> [] /\ ~ In 46 l) (fqdn_new s).
Proof.
  unfold fqdn_new. apply Forall_forall. intros l Hl. apply filter_In in Hl as [H1 H2].
  split; [destruct l; [discriminate|congruence]|].
  pose proof (split_dot_labels s [] (fun X => X)) as F. rewrite Forall_forall in F. auto.
Qed.

Lemma display_cons l f : fqdn_display (l :: f) = l ++ flat_map (fun x => 46 :: x) f.
Proof.
  revert l. induction f as [|l' f IH]; intros l; [cbn; rewrite app_nil_r; reflexivity|].
  change (fqdn_display (l :: l' :: f)) with (l ++ 46 :: fqdn_display (l' :: f)).
  rewrite IH. reflexivity.
Qed.

Lemma fqdn_new_display f : Forall (fun l => l <> [] /\ ~ In 46 l) f -> fqdn_new (fqdn_display f) = f.
Proof.
  induction 1 as [|l f [H1 H2] Hf IH]; [reflexivity|].
  destruct f as [|l' f]; [cbn [fqdn_display]; apply fqdn_new_label; assumption|].
  change (fqdn_display (l :: l' :: f)) with (l ++ 46 :: fqdn_display (l' :: f)).
  rewrite fqdn_new_app, IH, fqdn_new_label by assumption. reflexivity.
Qed.

(** ** Text *)
Lemma encode_dot cp : scalar cp -> In 46 (utf8_encode cp) -> cp = 46.
Proof.
  unfold utf8_encode, scalar. intros S.
  destruct (N.ltb_spec cp 128); [cbn [In]; intros [X|[]]; auto|].
  destruct (N.ltb_spec cp 2048); [cbn [In]; intros [X|[X|[]]]; lia|].
  destruct (N.ltb_spec cp 65536); cbn [In]; intros X;
    repeat (destruct X as [X|X]; [lia|]); destruct X.
Qed.

(** Splitting at the byte 46 is splitting at the character '.'. *)
Lemma split_dot_text cps : Forall scalar cps -> forall cur, is_text cur ->
  Forall is_text (split_dot cur (flat_map utf8_encode cps)).
Proof.
  induction 1 as [|cp cps Hc Hcs IH]; intros cur Hcur; cbn [flat_map].
  - constructor; [assumption|constructor].
  - assert (Henc : is_text (utf8_encode cp)).
    { exists [cp]. split; [auto|]. cbn. rewrite app_nil_r. reflexivity. }
    destruct (N.eq_dec cp 46) as [->|Hne].
    + change (utf8_encode 46) with [46]. cbn [app split_dot].
      constructor; [assumption|]. apply IH. exists []. auto.
    + assert (G : forall e rest c, ~ In 46 e -> split_dot c (e ++ rest) = split_dot (c ++ e) rest).
      { induction e as [|x e IHe]; intros rest c Hn; cbn [app split_dot].
        - rewrite app_nil_r. reflexivity.
        - destruct (N.eqb_spec x 46) as [->|]; [exfalso; apply Hn; left; reflexivity|].
          rewrite IHe by (intros X; apply Hn; right; exact X). rewrite <- app_assoc. reflexivity. }
      rewrite G by (intros X; apply encode_dot in X; auto).
      apply IH. apply text_app; assumption.
Qed.

Lemma fqdn_new_text s : is_text s -> Forall is_text (fqdn_new s).
Proof.
  intros [cps [H ->]]. unfold fqdn_new.
  assert (F : Forall is_text (split_dot [] (flat_map utf8_encode cps)))
    by (apply split_dot_text; [assumption|exists []; auto]).
  rewrite Forall_forall in *. intros l Hl. apply filter_In in Hl as [Hl _]. auto.
Qed.

Lemma display_text f : Forall is_text f -> is_text (fqdn_display f).
Proof.
  intros H. destruct f as [|l f]; [exists []; auto|]. rewrite display_cons. inversion H; subst.
  apply text_app; [assumption|]. clear H H2.
  induction H3 as [|x f Hx Hf IH]; [exists []; auto|]. cbn [flat_map].
  apply (text_app (46 :: x)); [|assumption].
  apply (text_app [46]); [|assumption]. exists [46]. split; [|reflexivity].
  constructor; [left; lia|constructor].
Qed.

(** ** Predicates *)
Lemma byte_size_pos f : (1 <= fqdn_byte_size f)%nat.
Proof. rewrite fqdn_byte_size_eq, fqdn_to_bytes_eq, app_length. cbn; lia. Qed.

Lemma is_empty_false f : fqdn_is_empty f = false.
Proof. unfold fqdn_is_empty. pose proof (byte_size_pos f). apply Nat.eqb_neq. lia. Qed.

Lemma is_root_labels f : fqdn_is_root f = true <-> Forall (fun l => l = []) f.
Proof.
  unfold fqdn_is_root. rewrite is_empty_false. cbn [orb]. rewrite forallb_forall, Forall_forall.
  split; intros H l Hl; specialize (H l Hl); destruct l; cbn in *; congruence.
Qed.

Lemma is_root_bytes f : fqdn_is_root f = true <-> fqdn_to_bytes f = [0].
Proof.
  rewrite is_root_labels, fqdn_to_bytes_eq. split.
  - intros H. assert (E : filter nonempty f = []).
    { induction H as [|l f -> Hf IH]; [reflexivity|]. exact IH. }
    rewrite E. reflexivity.
  - intros E. assert (E' : flat_map label_bytes (filter nonempty f) = []).
    { destruct (flat_map label_bytes (filter nonempty f)) as [|x [|y r]]; [reflexivity| |]; discriminate. }
    apply Forall_forall. intros l Hl. destruct l as [|x l]; [reflexivity|].
    assert (I : In (x :: l) (filter nonempty f)) by (apply filter_In; auto).
    apply in_split in I as [a [b I]]. rewrite I in E'. rewrite flat_map_app in E'.
    apply app_eq_nil in E' as [_ E']. discriminate.
Qed.

Lemma bytes_eqb_eq a : forall b, bytes_eqb a b = true <-> a = b.
Proof.
  induction a as [|x a IH]; intros [|y b]; cbn; try (split; congruence).
  rewrite andb_true_iff, N.eqb_eq, IH. split; [intros [-> ->]; reflexivity|intros E; inversion E; auto].
Qed.

Lemma local_valid : utf8_valid local_label = true.
Proof. reflexivity. Qed.

Lemma is_link_local_iff f : fqdn_is_link_local f = true <-> exists f', f = f' ++ [local_label].
Proof.
  unfold fqdn_is_link_local. destruct (rev f) as [|l r] eqn:E.
  - split; [discriminate|]. intros [f' ->]. rewrite rev_app_distr in E. discriminate.
  - assert (Ef : f = rev r ++ [l]) by (rewrite <- (rev_involutive f), E; reflexivity).
    split.
    + destruct (utf8_valid l); [|discriminate]. rewrite bytes_eqb_eq. intros ->. eauto.
    + intros [f' ->]. rewrite rev_app_distr in E. cbn in E. inversion E; subst.
      rewrite local_valid. apply bytes_eqb_eq. reflexivity.
Qed.

Lemma label_count_small f : (length f <= 255)%nat -> fqdn_label_count f = N.of_nat (length f).
Proof. intros H. apply len8_id. lia. Qed.

(** The other direction: a dot is a character of its own. *)
Lemma text_dot a b : is_text (a ++ 46 :: b) -> is_text a /\ is_text b.
Proof.
  intros (cps & H & E). symmetry in E. revert a E. induction H as [|cp cps Hc Hcs IH]; intros a E.
  - cbn [flat_map] in E. destruct a; discriminate E.
  - cbn [flat_map] in E. apply app_eq_app in E. destruct E as (l & [[E1 E2]|[E1 E2]]); [symmetry in E2|]; cycle 1.
    + subst a. destruct (IH l E2) as [T1 T2]. split; [|exact T2].
      apply text_app; [|exact T1]. exists [cp]. split; [auto|]. cbn [flat_map]. rewrite app_nil_r. reflexivity.
    + destruct l as [|x l].
      * rewrite app_nil_r in E1. cbn [app] in E2. destruct (IH [] E2) as [_ T2]. split; [|exact T2].
        rewrite <- E1. exists [cp]. split; [auto|]. cbn [flat_map]. rewrite app_nil_r. reflexivity.
      * cbn [app] in E2. injection E2 as -> E2.
        assert (cp = 46) as ->. { apply encode_dot; [exact Hc|]. rewrite E1. apply in_or_app. right. left. reflexivity. }
        change (utf8_encode 46) with [46] in E1. destruct a as [|y a]; [|destruct a; discriminate E1].
        cbn [app] in E1. injection E1 as <-. cbn [app] in E2. subst b. split; [exists []; auto|exists cps; auto].
Qed.
Lemma display_text_iff f : is_text (fqdn_display f) <-> Forall is_text f.
Proof.
  split; [|apply display_text]. induction f as [|l [|l' f] IH]; intros H.
  - constructor.
  - constructor; [exact H|constructor].
  - change (fqdn_display (l :: l' :: f)) with (l ++ 46 :: fqdn_display (l' :: f)) in H. apply text_dot in H. destruct H as [A B].
    constructor; [exact A|apply IH, B].
Qed.
