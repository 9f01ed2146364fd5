(** * When name decoding does not return, and when it panics. *)
From Verif Require Import Base Utf8 Buffer BaseFacts BufferFacts NameSpec FqdnLoop.
From Coq Require Import Lia ZifyBool ZifyNat ZifyN ListDec.
Ltac Zify.zify_post_hook ::= Z.div_mod_to_equations.

(** The loop's [org] is one more than the place of the first pointer. *)
Definition org_of (o : option nat) : option nat :=
  match o with None => None | Some o => Some (o + 1)%nat end.

Lemma hop_step d s s' : hop d s s' ->
  exists push, step d (org_of (fst s)) (snd s) = Go push (org_of (fst s')) (snd s').
Proof.
  intros H. destruct H as [o p l Hl|p t Hp Ht|o p t Hp Ht]; cbn [fst snd org_of].
  - eexists. apply step_label, Hl.
  - eexists. rewrite (step_ptr d None p t Hp) by lia. reflexivity.
  - eexists. rewrite (step_ptr d (Some (o + 1)%nat) p t Hp) by lia. reflexivity.
Qed.

Lemma step_hop d o p push org' p' : byte_list d ->
  step d (org_of o) p = Go push org' p' ->
  exists o', org' = org_of o' /\ hop d (o, p) (o', p').
Proof.
  intros HB E. pose proof (step_cases d (org_of o) p HB) as C. rewrite E in C.
  destruct C as [[l [_ [Hl [-> ->]]]]|[_ [Hp [-> Ht]]]].
  - exists o. split; [reflexivity|]. constructor; assumption.
  - destruct o as [o|]; cbn [org_of] in *.
    + exists (Some o). split; [reflexivity|]. constructor; [assumption|lia].
    + exists (Some p). split; [reflexivity|]. constructor; [assumption|lia].
Qed.

(** ** Panic *)
Lemma step_panic d org p q : byte_list d ->
  step d org p = Stop (Panic, q) <->
  q = p /\ (nth_error d p = None \/
  exists n, nth_error d p = Some n /\ 1 <= n <= 191 /\ (p + N.to_nat n)%nat = length d).
Proof.
  intros HB. unfold step. destruct (nth_error d p) as [n|] eqn:E.
  2:{ split; [intros X; inversion X; auto|intros [-> _]; reflexivity]. }
  assert (Hn : n < 256) by (eapply byte_at; eauto).
  rewrite mask_byte by assumption. destruct (N.leb_spec 192 n); cbn zeta.
  - assert (R : ~ (q = p /\ (@Some N n = None \/ (exists n0, Some n = Some n0 /\ 1 <= n0 <= 191 /\
             (p + N.to_nat n0)%nat = length d)))).
    { intros [_ [X|[m [X [Y _]]]]]; [discriminate|inversion X; lia]. }
    repeat match goal with |- context [if ?c then _ else _] => destruct c end;
      (split; [discriminate|intros; exfalso; tauto]).
  - destruct (Nat.ltb_spec (length d) (p + N.to_nat n)).
    + split; [discriminate|]. intros [_ [X|[m [X [Y Z]]]]]; [discriminate|inversion X; subst; lia].
    + destruct (N.eqb_spec n 0).
      * split; [discriminate|]. intros [_ [X|[m [X [Y Z]]]]]; [discriminate|inversion X; subst; lia].
      * destruct (Nat.ltb_spec (length d) (p + 1 + N.to_nat n)).
        -- split; [intros X; inversion X; subst; split; [reflexivity|]; right; exists n; repeat split; auto; lia|].
           intros [-> _]. reflexivity.
        -- split; [discriminate|]. intros [_ [X|[m [X [Y Z]]]]]; [discriminate|inversion X; subst; lia].
Qed.

Lemma prepend_panic acc r : fst (prepend acc r) = Panic <-> fst r = Panic.
Proof. destruct r as [[] q]; cbn; split; congruence. Qed.

Lemma loop_panic_walk d f : byte_list d -> forall acc o p,
  fst (fqdn_loop d f acc (org_of o) p) = Panic ->
  exists o' q, hops d (o, p) (o', q) /\
    (nth_error d q = None \/
     exists n, nth_error d q = Some n /\ 1 <= n <= 191 /\ (q + N.to_nat n)%nat = length d).
Proof.
  intros HB. induction f; intros acc o p; [discriminate|]. rewrite loop_step.
  destruct (step d (org_of o) p) as [[r q]|push org' p'] eqn:E.
  - rewrite prepend_panic. cbn [fst]. intros ->. apply step_panic in E as [-> E]; [|assumption].
    exists o, p. split; [constructor|assumption].
  - intros H. apply step_hop in E as [o' [-> Hh]]; [|assumption].
    apply IHf in H as [o'' [q [H1 H2]]]. exists o'', q. split; [|assumption].
    econstructor; eassumption.
Qed.

Lemma walk_loop_panic d s s' : byte_list d -> hops d s s' ->
  (nth_error d (snd s') = None \/
   exists n, nth_error d (snd s') = Some n /\ 1 <= n <= 191 /\ (snd s' + N.to_nat n)%nat = length d) ->
  exists f, forall acc, fst (fqdn_loop d f acc (org_of (fst s)) (snd s)) = Panic.
Proof.
  intros HB. induction 1 as [s|s s1 s2 Hh Hs IH]; intros HP.
  - exists 1%nat. intros acc. rewrite loop_step.
    rewrite (proj2 (step_panic d (org_of (fst s)) (snd s) (snd s) HB)) by auto.
    apply prepend_panic. reflexivity.
  - destruct (IH HP) as [f Hf]. exists (S f). intros acc. rewrite loop_step.
    destruct (hop_step _ _ _ Hh) as [push ->]. apply Hf.
Qed.

Lemma fqdn_panic_iff d p : byte_list d ->
  (fst (extract_fqdn (mkbuf d p)) = Panic <-> runs_off d p).
Proof.
  intros HB. unfold extract_fqdn; cbn [data pos].
  destruct (fqdn_loop d (fqdn_fuel d) [] None p) as [r q] eqn:E. cbn [fst]. split.
  - intros ->. apply (loop_panic_walk d (fqdn_fuel d) HB [] None p). cbn [org_of]. rewrite E. reflexivity.
  - intros [o [q' [H1 H2]]]. destruct (walk_loop_panic d _ _ HB H1 H2) as [f Hf].
    specialize (Hf []). cbn [fst snd org_of] in Hf.
    assert (X : fqdn_loop d (fqdn_fuel d) [] None p = fqdn_loop d f [] None p).
    { apply fuel_enough. rewrite Hf. reflexivity. }
    rewrite E in X. rewrite <- X in Hf. exact Hf.
Qed.

(** ** Divergence *)
Lemma hop_det d s s1 s2 : hop d s s1 -> hop d s s2 -> s1 = s2.
Proof.
  intros H1 H2. destruct (hop_step _ _ _ H1) as [a1 E1]. destruct (hop_step _ _ _ H2) as [a2 E2].
  rewrite E1 in E2. inversion E2 as [[X1 X2 X3]]. destruct s1 as [o1 p1], s2 as [o2 p2]. cbn [fst snd] in *.
  f_equal; [|assumption].
  destruct o1, o2; cbn [org_of] in X2; try discriminate; [|reflexivity].
  inversion X2. f_equal. lia.
Qed.

Lemma hops_app d a b c : hops d a b -> hops d b c -> hops d a c.
Proof. induction 1; intros H2; [assumption|]. econstructor; eauto. Qed.

(** A walk of a given length. *)
Inductive walk (d : bytes) : nat -> option nat * nat -> option nat * nat -> Prop :=
| walk_O s : walk d 0 s s
| walk_S n s s' s'' : hop d s s' -> walk d n s' s'' -> walk d (S n) s s''.

Lemma walk_hops d n a b : walk d n a b -> hops d a b.
Proof. induction 1; [constructor|econstructor; eassumption]. Qed.
Lemma hops_walk d a b : hops d a b -> exists n, walk d n a b.
Proof. induction 1 as [|s s1 s2 H1 H2 [n IH]]; [exists 0%nat; constructor|exists (S n); econstructor; eassumption]. Qed.
Lemma walk_app d n m a b c : walk d n a b -> walk d m b c -> walk d (n + m) a c.
Proof. induction 1; intros H2; [assumption|]. cbn. econstructor; eauto. Qed.
Lemma walk_split d m n a c : walk d (m + n) a c -> exists b, walk d m a b /\ walk d n b c.
Proof.
  revert a. induction m as [|m IH]; intros a H; cbn in H.
  - exists a. split; [constructor|assumption].
  - inversion H; subst. destruct (IH _ H2) as [b [H4 H5]]. exists b. split; [econstructor; eassumption|assumption].
Qed.
Lemma walk_le d m n a c : (m <= n)%nat -> walk d n a c -> exists b, walk d m a b.
Proof.
  intros Hle H. replace n with (m + (n - m))%nat in H by lia.
  apply walk_split in H as [b [H _]]. eauto.
Qed.

Lemma loop_diverge_walk d f : byte_list d -> forall acc o p,
  fst (fqdn_loop d f acc (org_of o) p) = Diverge <-> exists s, walk d f (o, p) s.
Proof.
  intros HB. induction f; intros acc o p.
  - cbn [fqdn_loop fst]. split; [|reflexivity]. intros _. exists (o, p). constructor.
  - rewrite loop_step. destruct (step d (org_of o) p) as [[r q]|push org' p'] eqn:E.
    + split.
      * intros H. exfalso. apply (step_not_diverge _ _ _ _ E).
        destruct r; cbn in *; congruence.
      * intros [s H]. inversion H; subst. destruct (hop_step _ _ _ H1) as [push X].
        cbn [fst snd] in X. congruence.
    + pose proof E as E'. apply step_hop in E as [o' [-> Hh]]; [|assumption]. rewrite IHf. split.
      * intros [s H]. exists s. econstructor; eassumption.
      * intros [s H]. inversion H; subst. rewrite <- (hop_det _ _ _ _ Hh H1) in H2. eauto.
Qed.

(** States visited, as a list. *)
Lemma walk_states d n a b : walk d n a b ->
  exists l, length l = S n /\ (forall i s, nth_error l i = Some s -> walk d i a s).
Proof.
  intros H. revert b H. induction n as [|n IH]; intros b H.
  - exists [a]. split; [reflexivity|]. intros [|[|i]] s E; inversion E; subst. constructor.
  - assert (H' : exists c, walk d n a c) by (eapply walk_le; [|exact H]; lia).
    destruct H' as [c Hc]. destruct (IH c Hc) as [l [L1 L2]]. exists (l ++ [b]).
    split; [rewrite app_length; cbn; lia|]. intros i s E.
    destruct (Nat.lt_ge_cases i (length l)).
    + rewrite nth_error_app1 in E by assumption. auto.
    + rewrite nth_error_app2 in E by assumption.
      assert (i = length l).
      { destruct (i - length l)%nat eqn:X; [lia|]. destruct n0; discriminate E. }
      subst i. rewrite Nat.sub_diag in E. inversion E; subst. rewrite L1. exact H.
Qed.

Lemma walk_det d n a b c : walk d n a b -> walk d n a c -> b = c.
Proof.
  induction 1; intros H2; inversion H2; subst; [reflexivity|].
  rewrite (hop_det _ _ _ _ H H3) in *. auto.
Qed.

(** Once a pointer has been followed, the first component is fixed. *)
Lemma hop_some d o p s : hop d (Some o, p) s -> fst s = Some o.
Proof. intros H; inversion H; reflexivity. Qed.
Lemma walk_some d n o p s : walk d n (Some o, p) s -> fst s = Some o.
Proof.
  intros H. remember (Some o, p) as a. revert p Heqa.
  induction H as [s|n s s1 s2 H1 H2 IH]; intros p ->; [reflexivity|].
  pose proof (hop_some _ _ _ _ H1). destruct s1 as [o1 p1]; cbn in *; subst. eauto.
Qed.

Lemma hop_lt d s s' : hop d s s' -> (snd s < length d)%nat.
Proof.
  intros H; inversion H as [o p l [n [E _]]|p t [a [b [E _]]]|o p t [a [b [E _]]]]; subst; cbn [snd];
    apply nth_error_Some; congruence.
Qed.

(** Before the first pointer the place increases. *)
Lemma walk_none d n : forall p q, walk d n (None, p) (None, q) -> (p + n <= q)%nat.
Proof.
  induction n as [|n IH]; intros p q H; inversion H; subst; [lia|].
  inversion H1; subst.
  - apply IH in H2. lia.
  - apply walk_some in H2. discriminate.
Qed.

Lemma pigeon {X} (dec : forall a b : X, {a = b} + {a <> b}) (l u : list X) :
  (length u < length l)%nat -> incl l u ->
  exists i j x, (i < j)%nat /\ nth_error l i = Some x /\ nth_error l j = Some x.
Proof.
  intros HL HI. destruct (NoDup_dec dec l) as [ND|ND].
  - exfalso. pose proof (NoDup_incl_length ND HI). lia.
  - clear HL HI u. induction l as [|a l IH]; [destruct ND; constructor|].
    destruct (in_dec dec a l) as [Hin|Hn].
    + apply In_nth_error in Hin as [j Hj]. exists 0%nat, (S j), a. repeat split; auto; lia.
    + destruct IH as [i [j [x [H1 [H2 H3]]]]].
      { intros X1. apply ND. constructor; assumption. }
      exists (S i), (S j), x. repeat split; auto; lia.
Qed.

Lemma state_dec (a b : option nat * nat) : {a = b} + {a <> b}.
Proof. repeat decide equality. Qed.

Lemma fqdn_diverge_iff d p : byte_list d ->
  (fst (extract_fqdn (mkbuf d p)) = Diverge <-> circular d p).
Proof.
  intros HB. unfold extract_fqdn; cbn [data pos].
  destruct (fqdn_loop d (fqdn_fuel d) [] None p) as [r q] eqn:E. cbn [fst]. split.
  - intros ->.
    assert (W : exists s, walk d (fqdn_fuel d) (None, p) s).
    { apply (loop_diverge_walk d _ HB []). cbn [org_of]. rewrite E. reflexivity. }
    (* skip the part before the first pointer: at most [length d] hops *)
    assert (W1 : exists m o t s, walk d m (None, p) (Some o, t) /\ walk d (length d + 1) (Some o, t) s).
    { destruct W as [s W]. unfold fqdn_fuel in W.
      replace (2 * length d + 3)%nat with (S (length d) + (length d + 2))%nat in W by lia.
      apply walk_split in W as [[o t] [W1 W2]].
      destruct o as [o|].
      - apply walk_le with (m := (length d + 1)%nat) in W2 as [s' W2]; [|lia].
        exists (S (length d)), o, t, s'. auto.
      - apply walk_none in W1. replace (length d + 2)%nat with (S (length d + 1)) in W2 by lia.
        inversion W2; subst. apply hop_lt in H0. cbn [snd] in H0. lia. }
    destruct W1 as [m [o [t [s [W1 W2]]]]].
    destruct (walk_states _ _ _ _ W2) as [l [L1 L2]].
    set (l' := firstn (length d + 1) l).
    assert (HI : incl l' (map (fun x => (Some o, x)) (seq 0 (length d)))).
    { intros x Hx. apply In_nth_error in Hx as [i Hi].
      assert (Hil : (i < length d + 1)%nat).
      { assert (i < length l')%nat by (apply nth_error_Some; congruence).
        unfold l' in H. rewrite firstn_length in H. lia. }
      assert (Hi' : nth_error l i = Some x).
      { rewrite <- (firstn_skipn (length d + 1) l), nth_error_app1; [exact Hi|].
        apply nth_error_Some. unfold l' in Hi. congruence. }
      apply L2 in Hi'. pose proof (walk_some _ _ _ _ _ Hi') as F. destruct x as [o' x]; cbn in F; subst o'.
      apply in_map_iff. exists x. split; [reflexivity|]. apply in_seq.
      (* x is followed by a hop *)
      assert (Hn : exists s', walk d 1 (Some o, x) s').
      { replace (length d + 1)%nat with (i + S (length d - i))%nat in W2 by lia.
        apply walk_split in W2 as [b [Wa Wb]]. rewrite (walk_det _ _ _ _ _ Wa Hi') in Wb.
        eapply walk_le; [|exact Wb]. lia. }
      destruct Hn as [s' Hn]. inversion Hn; subst. apply hop_lt in H0. cbn [snd] in H0. lia. }
    assert (HLen : (length (map (fun x => (Some o, x)) (seq 0 (length d))) < length l')%nat).
    { unfold l'. rewrite map_length, seq_length, firstn_length. lia. }
    destruct (pigeon state_dec l' _ HLen HI) as [i [j [x [Hij [Hi Hj]]]]].
    assert (G : forall k, nth_error l' k = Some x -> walk d k (Some o, t) x).
    { intros k Hk. apply L2. rewrite <- (firstn_skipn (length d + 1) l), nth_error_app1; [exact Hk|].
      apply nth_error_Some. unfold l' in Hk. congruence. }
    pose proof (G _ Hi) as Wi. pose proof (G _ Hj) as Wj.
    replace j with (i + S (j - i - 1))%nat in Wj by lia.
    apply walk_split in Wj as [b [Wa Wb]]. rewrite (walk_det _ _ _ _ _ Wa Wi) in Wb.
    inversion Wb; subst. exists x, s'. split; [|split].
    + eapply hops_app; eapply walk_hops; eassumption.
    + assumption.
    + eapply walk_hops; eassumption.
  - intros [s [s' [H1 [H2 H3]]]].
    assert (W : forall k, exists s1, walk d k (None, p) s1).
    { apply hops_walk in H1 as [n1 W1]. apply hops_walk in H3 as [n3 W3].
      assert (WC : forall k, exists n, (k <= n)%nat /\ walk d n s s).
      { induction k as [|k [n [Hk IH]]]; [exists 0%nat; split; [lia|constructor]|].
        exists (S n3 + n)%nat. split; [lia|]. eapply walk_app; [|exact IH]. econstructor; eassumption. }
      intros k. destruct (WC k) as [n [Hk Wn]].
      eapply walk_le; [|eapply walk_app; [exact W1|exact Wn]]. lia. }
    specialize (W (fqdn_fuel d)). apply (loop_diverge_walk d _ HB [] None p) in W.
    cbn [org_of] in W. rewrite E in W. exact W.
Qed.
