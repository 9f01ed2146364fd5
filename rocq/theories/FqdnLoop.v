(** * Lemmas about the name decoding loop (Buffer.fqdn_loop). *)
From Verif Require Import Base Utf8 Buffer BaseFacts BufferFacts NameSpec.
From Coq Require Import Lia ZifyBool ZifyNat ZifyN.
Ltac Zify.zify_post_hook ::= Z.div_mod_to_equations.

(** ** Bit masks on bytes *)
Lemma mask_byte : forall x, x < 256 -> (N.land x COMPRESSION_MASK =? COMPRESSION_MASK) = (192 <=? x).
Proof.
  assert (H : forallb (fun x => Bool.eqb (N.land x COMPRESSION_MASK =? COMPRESSION_MASK) (192 <=? x))
                (map N.of_nat (seq 0 256)) = true) by (vm_compute; reflexivity).
  intros x Hx. rewrite forallb_forall in H. apply Bool.eqb_prop, H.
  apply in_map_iff. exists (N.to_nat x). split; [lia|]. apply in_seq. lia.
Qed.

Lemma land_14 n : N.land n (65535 - COMPRESSION_MASK_U16) = n mod 16384.
Proof. change (65535 - COMPRESSION_MASK_U16) with (N.ones 14). apply N.land_ones. Qed.

Lemma mask_small x : x <= 191 -> (N.land x COMPRESSION_MASK =? COMPRESSION_MASK) = false.
Proof. intros. rewrite mask_byte by lia. lia. Qed.

Lemma unbe2 a b : unbe [a; b] = a * 256 + b.
Proof. unfold unbe; cbn [fold_left]. lia. Qed.

(** ** One iteration *)
Inductive step_res :=
| Stop (r : res (list bytes) * nat)
| Go (push : list bytes) (org : option nat) (p : nat).

(** What one iteration does, apart from the accumulated labels. *)
Definition step (d : bytes) (org : option nat) (p : nat) : step_res :=
  match nth_error d p with
  | None => Stop (Panic, p)
  | Some len =>
    if N.land len COMPRESSION_MASK =? COMPRESSION_MASK then
      let o := match org with None => (p + 1)%nat | Some o => o end in
      if (length d <? p + 2)%nat then Stop (Err LengthViolation, p)
      else
        let t := N.to_nat (N.land (unbe (slice d p 2)) (65535 - COMPRESSION_MASK_U16)) in
        if (o <=? t)%nat then Stop (Err UnresolveableCompressionPointer, o)
        else Go [] (Some o) t
    else if (length d <? p + N.to_nat len)%nat then Stop (Err LengthViolation, p)
    else if len =? 0 then Stop (Ok [], (match org with Some o => o | None => p end + 1)%nat)
    else if (length d <? p + 1 + N.to_nat len)%nat then Stop (Panic, p)
    else Go [slice d (p + 1) (N.to_nat len)] org (p + 1 + N.to_nat len)
  end.

Definition prepend (acc : list bytes) (r : res (list bytes) * nat) : res (list bytes) * nat :=
  (rmap (fun l => acc ++ l) (fst r), snd r).

Lemma loop_step d f acc org p :
  fqdn_loop d (S f) acc org p =
  match step d org p with
  | Stop r => prepend acc r
  | Go push org' p' => fqdn_loop d f (acc ++ push) org' p'
  end.
Proof.
  cbn [fqdn_loop]. unfold step, prepend. destruct (nth_error d p) as [len|]; [|reflexivity].
  destruct (N.land len COMPRESSION_MASK =? COMPRESSION_MASK).
  - unfold peek_bytes; cbn [data pos].
    destruct (length d <? p + 2)%nat; [reflexivity|]. cbn zeta.
    destruct org as [o|]; cbv beta iota.
    + destruct (o <=? _)%nat; [reflexivity|]. rewrite app_nil_r. reflexivity.
    + destruct (p + 1 <=? _)%nat; [reflexivity|]. rewrite app_nil_r. reflexivity.
  - destruct (length d <? p + N.to_nat len)%nat; [reflexivity|].
    destruct (len =? 0); [cbn; rewrite app_nil_r; reflexivity|].
    destruct (length d <? p + 1 + N.to_nat len)%nat; reflexivity.
Qed.

Lemma prepend_nil r : prepend [] r = r.
Proof. destruct r as [[]]; reflexivity. Qed.
Lemma prepend_app a b r : prepend a (prepend b r) = prepend (a ++ b) r.
Proof. destruct r as [[]]; unfold prepend; cbn; rewrite ?app_assoc; reflexivity. Qed.

Lemma loop_acc d f : forall acc org p,
  fqdn_loop d f acc org p = prepend acc (fqdn_loop d f [] org p).
Proof.
  induction f; intros acc org p; [reflexivity|].
  rewrite !loop_step. destruct (step d org p) as [r|push org' p'].
  - rewrite prepend_nil. reflexivity.
  - rewrite IHf, (IHf ([] ++ push)), prepend_app. reflexivity.
Qed.

Lemma step_not_diverge d org p r : step d org p = Stop r -> fst r <> Diverge.
Proof.
  unfold step. destruct (nth_error d p) as [len|]; [|intros E; inversion E; discriminate].
  destruct (N.land len COMPRESSION_MASK =? COMPRESSION_MASK); cbn zeta;
    repeat match goal with |- context [if ?c then _ else _] => destruct c end;
    intros E; inversion E; discriminate.
Qed.

(** ** Fuel *)
Definition stuck {A} (r : res A) : bool := match r with Diverge => true | _ => false end.

Lemma prepend_stuck acc r : stuck (fst (prepend acc r)) = stuck (fst r).
Proof. destruct r as [[]]; reflexivity. Qed.

Lemma loop_mono d f : forall f' acc org p, (f <= f')%nat ->
  stuck (fst (fqdn_loop d f acc org p)) = false ->
  fqdn_loop d f' acc org p = fqdn_loop d f acc org p.
Proof.
  induction f; intros f' acc org p Hle Hs; [discriminate|].
  destruct f' as [|f']; [lia|]. rewrite !loop_step in *.
  destruct (step d org p); [reflexivity|]. apply IHf; [lia|assumption].
Qed.

(** Steps after the first pointer: [halts k p] means stopping after at most [k] moves. *)
Section AFTER_POINTER.
Variable d : bytes.
Variable o : nat.

Definition nxt (p : nat) : option nat :=
  match step d (Some o) p with Stop _ => None | Go _ _ p' => Some p' end.

Lemma nxt_org p push org' p' : step d (Some o) p = Go push org' p' -> org' = Some o.
Proof.
  unfold step. destruct (nth_error d p) as [len|]; [|discriminate].
  destruct (N.land len COMPRESSION_MASK =? COMPRESSION_MASK); cbn zeta;
    repeat match goal with |- context [if ?c then _ else _] => destruct c end;
    intros E; inversion E; reflexivity.
Qed.

Lemma nxt_lt p p' : nxt p = Some p' -> (p < length d)%nat.
Proof.
  unfold nxt, step. destruct (nth_error d p) eqn:E; [|discriminate].
  intros _. apply nth_error_Some. congruence.
Qed.

Fixpoint halts (k : nat) (p : nat) : Prop :=
  match nxt p with
  | None => True
  | Some p' => match k with O => False | S k' => halts k' p' end
  end.

Lemma halts_loop k : forall p acc,
  halts k p <-> stuck (fst (fqdn_loop d (S k) acc (Some o) p)) = false.
Proof.
  induction k; intros p acc; rewrite loop_step; cbn [halts]; unfold nxt.
  - destruct (step d (Some o) p) as [r|push org' p'] eqn:E.
    + rewrite prepend_stuck. apply step_not_diverge in E.
      destruct (fst r); cbn; intuition congruence.
    + cbn. split; [tauto|discriminate].
  - destruct (step d (Some o) p) as [r|push org' p'] eqn:E.
    + rewrite prepend_stuck. apply step_not_diverge in E.
      destruct (fst r); cbn; intuition congruence.
    + rewrite (nxt_org _ _ _ _ E). apply IHk.
Qed.

Fixpoint trace (k p : nat) : list nat :=
  match nxt p with
  | None => []
  | Some p' => match k with O => [] | S k' => p :: trace k' p' end
  end.

Lemma trace_det k : forall k' p, halts k p -> halts k' p -> trace k p = trace k' p.
Proof.
  induction k; intros k' p H1 H2; destruct k'; cbn [halts trace] in *;
    destruct (nxt p); try tauto. f_equal. apply IHk; assumption.
Qed.

Lemma trace_suffix k : forall p q, halts k p -> In q (trace k p) ->
  exists j, halts j q /\ (length (trace j q) <= length (trace k p))%nat.
Proof.
  induction k; intros p q H I; cbn [halts trace] in *; destruct (nxt p) eqn:E; cbn in I; try tauto.
  destruct I as [->|I].
  - exists (S k). cbn [halts trace]. rewrite E. auto.
  - destruct (IHk _ _ H I) as [j [Hj Hl]]. exists j. split; [assumption|]. cbn [length]. lia.
Qed.

Lemma trace_nodup k : forall p, halts k p -> NoDup (trace k p).
Proof.
  induction k; intros p H; cbn [halts trace] in *; destruct (nxt p) eqn:E; try tauto; try constructor.
  - intros I. destruct (trace_suffix _ _ _ H I) as [j [Hj Hl]].
    assert (HS : halts (S k) p) by (cbn [halts]; rewrite E; assumption).
    rewrite (trace_det _ _ _ Hj HS) in Hl. cbn [trace] in Hl. rewrite E in Hl. cbn in Hl. lia.
  - apply IHk; assumption.
Qed.

Lemma trace_lt k : forall p, incl (trace k p) (seq 0 (length d)).
Proof.
  induction k; intros p q; cbn [trace]; destruct (nxt p) eqn:E; cbn; try tauto.
  intros [<-|I]; [apply in_seq; apply nxt_lt in E; lia|]. eapply IHk; eauto.
Qed.

Lemma halts_trace k : forall p, halts k p -> halts (length (trace k p)) p.
Proof.
  induction k; intros p; cbn [halts trace]; destruct (nxt p) eqn:E; try tauto.
  - intros _. cbn [length halts]. rewrite E. exact I.
  - intros H. cbn [length halts]. rewrite E. auto.
  - intros _. cbn [length halts]. rewrite E. exact I.
Qed.

Lemma halts_mono k : forall k' p, (k <= k')%nat -> halts k p -> halts k' p.
Proof.
  induction k; intros k' p Hle H; destruct k'; cbn [halts] in *; destruct (nxt p); try tauto; try lia.
  apply (IHk k'); [lia|assumption].
Qed.

Lemma halts_bound k p : halts k p -> halts (length d) p.
Proof.
  intros H. apply (halts_mono (length (trace k p))); [|apply halts_trace, H].
  rewrite <- (seq_length (length d) 0).
  apply NoDup_incl_length; [apply trace_nodup, H|apply trace_lt].
Qed.
End AFTER_POINTER.

Lemma step_None d p push org' p' : step d None p = Go push org' p' ->
  (org' = None /\ p < p' <= length d)%nat \/ (org' = Some (p + 1)%nat).
Proof.
  unfold step. destruct (nth_error d p) as [len|]; [|discriminate].
  destruct (N.land len COMPRESSION_MASK =? COMPRESSION_MASK); cbn zeta.
  - repeat match goal with |- context [if ?c then _ else _] => destruct c end;
    intros E; inversion E; auto.
  - destruct (length d <? p + N.to_nat len)%nat; [discriminate|].
    destruct (len =? 0); [discriminate|].
    destruct (Nat.ltb_spec (length d) (p + 1 + N.to_nat len)); intros E; inversion E; subst.
    left. split; [reflexivity|lia].
Qed.

(** If the loop stops at all then it stops within [length d - p + length d + 2] iterations. *)
Lemma loop_adequate d f : forall acc p,
  stuck (fst (fqdn_loop d f acc None p)) = false ->
  stuck (fst (fqdn_loop d (length d - p + length d + 2) acc None p)) = false.
Proof.
  induction f; intros acc p H; [discriminate|].
  replace (length d - p + length d + 2)%nat with (S (length d - p + length d + 1)) by lia.
  rewrite loop_step in *. destruct (step d None p) as [r|push org' p'] eqn:E; [assumption|].
  destruct (step_None _ _ _ _ _ E) as [[-> Hp]| ->].
  - apply IHf in H.
    erewrite loop_mono; [exact H| |exact H]. lia.
  - destruct f as [|f]; [discriminate|]. apply halts_loop, halts_bound in H.
    replace (length d - p + length d + 1)%nat with (S (length d - p + length d)) by lia.
    apply halts_loop. eapply halts_mono; [|exact H]. lia.
Qed.

Lemma fuel_enough d f acc p :
  stuck (fst (fqdn_loop d f acc None p)) = false ->
  fqdn_loop d (fqdn_fuel d) acc None p = fqdn_loop d f acc None p.
Proof.
  intros H. pose proof (loop_adequate _ _ _ _ H) as H2.
  set (k := (length d - p + length d + 2)%nat) in *.
  assert (Hk : (k <= fqdn_fuel d)%nat) by (unfold k, fqdn_fuel; lia).
  transitivity (fqdn_loop d k acc None p).
  - apply loop_mono; assumption.
  - destruct (Nat.le_ge_cases f k).
    + apply loop_mono; assumption.
    + symmetry. apply loop_mono; assumption.
Qed.

(** If the loop with the model's fuel reports [Diverge] then it never returns. *)
Lemma diverge_forever d acc p :
  fst (fqdn_loop d (fqdn_fuel d) acc None p) = Diverge ->
  forall f, fst (fqdn_loop d f acc None p) = Diverge.
Proof.
  intros H f. destruct (stuck (fst (fqdn_loop d f acc None p))) eqn:E.
  - destruct (fst (fqdn_loop d f acc None p)); try discriminate; reflexivity.
  - pose proof (fuel_enough _ _ _ _ E) as F. rewrite F in H. rewrite H in E. discriminate.
Qed.

(** ** Soundness and completeness with respect to [name_at] *)
Lemma slice2 (d : bytes) p a b : nth_error d p = Some a -> nth_error d (p + 1) = Some b -> slice d p 2 = [a; b].
Proof.
  intros Ha Hb. apply nth_error_split in Ha as [l1 [l2 [-> <-]]].
  rewrite nth_error_app2 in Hb by lia. replace (length l1 + 1 - length l1)%nat with 1%nat in Hb by lia.
  cbn in Hb. destruct l2; [discriminate|]. inversion Hb; subst.
  unfold slice. rewrite skipn_app, skipn_all, Nat.sub_diag. reflexivity.
Qed.

Lemma nth_error_ex {X} (d : list X) p : (p < length d)%nat -> exists b, nth_error d p = Some b.
Proof. intros H. destruct (nth_error d p) eqn:E; eauto. apply nth_error_None in E. lia. Qed.

Lemma byte_at (d : bytes) p x : byte_list d -> nth_error d p = Some x -> x < 256.
Proof. intros H E. unfold byte_list in H. rewrite Forall_forall in H. apply H. eapply nth_error_In; eauto. Qed.

Lemma ptr_target a b : a < 256 -> 192 <= a -> b < 256 ->
  N.land (unbe [a; b]) (65535 - COMPRESSION_MASK_U16) = (a - 192) * 256 + b.
Proof. intros. rewrite unbe2, land_14. lia. Qed.

(** The three kinds of step, in the vocabulary of the specification. *)
Lemma step_root d org p : nth_error d p = Some 0 -> (p < length d)%nat ->
  step d org p = Stop (Ok [], (match org with Some o => o | None => p end + 1)%nat).
Proof.
  intros E Hp. unfold step. rewrite E. cbn [N.land]. 
  change (0 =? COMPRESSION_MASK) with false. cbv iota.
  destruct (Nat.ltb_spec (length d) (p + N.to_nat 0)); [lia|]. reflexivity.
Qed.

Lemma step_label d org p l : label_at d 191 p l ->
  step d org p = Go [l] org (p + 1 + length l).
Proof.
  intros [n [E [Hn [Hb ->]]]]. unfold step. rewrite E, mask_small by lia.
  rewrite slice_length by lia.
  destruct (Nat.ltb_spec (length d) (p + N.to_nat n)); [lia|].
  destruct (N.eqb_spec n 0); [lia|].
  destruct (Nat.ltb_spec (length d) (p + 1 + N.to_nat n)); [lia|]. reflexivity.
Qed.

Lemma step_ptr d org p t : pointer_at d p t ->
  (t < match org with None => p + 1 | Some o => o end)%nat ->
  step d org p = Go [] (Some (match org with None => (p + 1)%nat | Some o => o end)) t.
Proof.
  intros [a [b [Ea [Ha [Eb [Hb ->]]]]]] Ht. unfold step. rewrite Ea.
  rewrite mask_byte by lia. destruct (N.leb_spec 192 a); [|lia].
  assert (Hlen : (p + 1 < length d)%nat) by (apply nth_error_Some; congruence).
  cbn zeta. destruct (Nat.ltb_spec (length d) (p + 2)); [lia|].
  rewrite (slice2 _ _ _ _ Ea Eb), ptr_target by lia.
  destruct (Nat.leb_spec (match org with None => p + 1 | Some o => o end)
              (N.to_nat ((a - 192) * 256 + b))); [lia|reflexivity].
Qed.

(** Every step is of one of those kinds, or an error. *)
Lemma step_cases d org p : byte_list d ->
  match step d org p with
  | Stop (Ok ls, q) => ls = [] /\ nth_error d p = Some 0 /\
                       q = (match org with Some o => o | None => p end + 1)%nat
  | Stop _ => True
  | Go push org' p' =>
      (exists l, push = [l] /\ label_at d 191 p l /\ org' = org /\ p' = (p + 1 + length l)%nat) \/
      (push = [] /\ pointer_at d p p' /\
       org' = Some (match org with None => (p + 1)%nat | Some o => o end) /\
       (p' < match org with None => p + 1 | Some o => o end)%nat)
  end.
Proof.
  intros HB. unfold step. destruct (nth_error d p) as [n|] eqn:E; [|exact I].
  assert (n < 256) by (eapply byte_at; eauto).
  rewrite mask_byte by assumption. destruct (N.leb_spec 192 n); cbn zeta.
  - destruct (Nat.ltb_spec (length d) (p + 2)); [exact I|].
    destruct (nth_error_ex d (p + 1)) as [b Eb]; [lia|].
    assert (b < 256) by (eapply byte_at; eauto).
    rewrite (slice2 _ _ _ _ E Eb), ptr_target by assumption.
    destruct (Nat.leb_spec (match org with None => p + 1 | Some o => o end)
              (N.to_nat ((n - 192) * 256 + b))); [exact I|].
    right. repeat split; try assumption. exists n, b. auto 7.
  - destruct (Nat.ltb_spec (length d) (p + N.to_nat n)); [exact I|].
    destruct (N.eqb_spec n 0); [subst; auto|].
    destruct (Nat.ltb_spec (length d) (p + 1 + N.to_nat n)); [exact I|].
    left. exists (slice d (p + 1) (N.to_nat n)). rewrite slice_length by lia.
    repeat split; auto. exists n. repeat split; auto; lia.
Qed.

Lemma tail_sound d o f : byte_list d -> forall p ls q,
  fqdn_loop d f [] (Some o) p = (Ok ls, q) -> tail_at d 191 o p ls /\ q = (o + 1)%nat.
Proof.
  intros HB. induction f; intros p ls q; [discriminate|].
  rewrite loop_step. pose proof (step_cases d (Some o) p HB) as C.
  destruct (step d (Some o) p) as [[r q']|push org' p'].
  - rewrite prepend_nil. intros E; inversion E; subst. destruct C as [-> [E0 ->]].
    split; [constructor; assumption|reflexivity].
  - rewrite loop_acc. destruct (fqdn_loop d f [] org' p') as [r q'] eqn:EL.
    destruct r; cbn; intros E; inversion E; subst.
    destruct C as [[l [-> [Hl [-> ->]]]]|[-> [Hp [-> Ht]]]]; apply IHf in EL as [IH1 IH2].
    + split; [|assumption]. cbn. constructor; assumption.
    + split; [|assumption]. cbn. econstructor; eassumption.
Qed.

Lemma name_sound d f : byte_list d -> forall p ls q,
  fqdn_loop d f [] None p = (Ok ls, q) -> name_at d 191 p ls q.
Proof.
  intros HB. induction f; intros p ls q; [discriminate|].
  rewrite loop_step. pose proof (step_cases d None p HB) as C.
  destruct (step d None p) as [[r q']|push org' p'].
  - rewrite prepend_nil. intros E; inversion E; subst. destruct C as [-> [E0 ->]].
    constructor; assumption.
  - rewrite loop_acc. destruct (fqdn_loop d f [] org' p') as [r q'] eqn:EL.
    destruct r; cbn; intros E; inversion E; subst.
    destruct C as [[l [-> [Hl [-> ->]]]]|[-> [Hp [-> Ht]]]].
    + apply IHf in EL. cbn. constructor; assumption.
    + apply tail_sound in EL as [H1 ->]; [|assumption]. cbn.
      replace (p + 1 + 1)%nat with (p + 2)%nat by lia. econstructor; [eassumption|lia|assumption].
Qed.

Lemma tail_complete d o p ls : tail_at d 191 o p ls ->
  exists f, fqdn_loop d f [] (Some o) p = (Ok ls, (o + 1)%nat).
Proof.
  induction 1 as [p E|p l ls Hl Ht [f IH]|p t ls Hp Hlt Ht [f IH]].
  - exists 1%nat. rewrite loop_step, step_root; [reflexivity|assumption|].
    apply nth_error_Some; congruence.
  - exists (S f). rewrite loop_step, (step_label _ _ _ _ Hl), loop_acc, IH. reflexivity.
  - exists (S f). rewrite loop_step, (step_ptr _ (Some o) _ _ Hp Hlt). exact IH.
Qed.

Lemma name_complete d p ls q : name_at d 191 p ls q ->
  exists f, fqdn_loop d f [] None p = (Ok ls, q).
Proof.
  induction 1 as [p E|p l ls q Hl Ht [f IH]|p t ls Hp Hlt Ht].
  - exists 1%nat. rewrite loop_step, step_root; [reflexivity|assumption|].
    apply nth_error_Some; congruence.
  - exists (S f). rewrite loop_step, (step_label _ _ _ _ Hl), loop_acc, IH. reflexivity.
  - destruct (tail_complete _ _ _ _ Ht) as [f Hf]. exists (S f).
    rewrite loop_step, (step_ptr _ None _ _ Hp) by (cbn; lia). cbn [app]. rewrite Hf.
    replace (p + 1 + 1)%nat with (p + 2)%nat by lia. reflexivity.
Qed.

Lemma extract_fqdn_complete d p ls q : name_at d 191 p ls q ->
  extract_fqdn (mkbuf d p) = (Ok ls, mkbuf d q).
Proof.
  intros H. unfold extract_fqdn; cbn [data pos].
  destruct (name_complete _ _ _ _ H) as [f Hf].
  pose proof (fuel_enough d f [] p) as F. rewrite Hf in F. specialize (F eq_refl).
  rewrite F. reflexivity.
Qed.

Lemma extract_fqdn_iff d p ls q : byte_list d ->
  (extract_fqdn (mkbuf d p) = (Ok ls, mkbuf d q) <-> name_at d 191 p ls q).
Proof.
  intros HB. unfold extract_fqdn; cbn [data pos].
  destruct (fqdn_loop d (fqdn_fuel d) [] None p) as [r q'] eqn:E. split.
  - intros H; inversion H; subst. eapply name_sound; eauto.
  - intros H. apply extract_fqdn_complete in H. unfold extract_fqdn in H; cbn [data pos] in H.
    rewrite E in H. exact H.
Qed.

(** The name at a position is unique. *)
Lemma name_at_unique d p ls q ls' q' : byte_list d ->
  name_at d 191 p ls q -> name_at d 191 p ls' q' -> ls = ls' /\ q = q'.
Proof.
  intros HB H1 H2. apply extract_fqdn_iff in H1, H2; try assumption.
  rewrite H1 in H2. inversion H2; auto.
Qed.

(** The cursor stays inside whatever happens. *)
Lemma loop_pos d f : forall org p r q,
  (p <= length d)%nat -> (match org with Some o => (o + 1 <= length d)%nat | None => True end) ->
  fqdn_loop d f [] org p = (r, q) -> (q <= length d)%nat.
Proof.
  induction f; intros org p r q Hp Ho.
  - cbn. intros E; inversion E; subst; assumption.
  - rewrite loop_step. unfold step. destruct (nth_error d p) as [n|] eqn:En.
    2:{ cbn. intros E; inversion E; subst; assumption. }
    assert (p < length d)%nat by (apply nth_error_Some; congruence).
    destruct (N.land n COMPRESSION_MASK =? COMPRESSION_MASK); cbn zeta.
    + destruct (Nat.ltb_spec (length d) (p + 2)).
      * cbn. intros E; inversion E; subst; assumption.
      * set (o := match org with None => (p + 1)%nat | Some o => o end).
        assert (Hoo : (o + 1 <= length d)%nat) by (subst o; clear -Ho H0; destruct org; lia).
        destruct (Nat.leb_spec o (N.to_nat (N.land (unbe (slice d p 2)) (65535 - COMPRESSION_MASK_U16)))).
        -- cbn. intros E; inversion E; subst; lia.
        -- cbn [app]. intros E. eapply (IHf (Some o)); [|exact Hoo|exact E]. lia.
    + destruct (Nat.ltb_spec (length d) (p + N.to_nat n)).
      * cbn. intros E; inversion E; subst; assumption.
      * destruct (n =? 0).
        -- cbn. intros E; inversion E; subst. destruct org; lia.
        -- destruct (Nat.ltb_spec (length d) (p + 1 + N.to_nat n)).
           ++ cbn. intros E; inversion E; subst; assumption.
           ++ rewrite loop_acc. destruct (fqdn_loop d f [] org _) as [r' q'] eqn:EL.
              cbn. intros E; inversion E; subst. eapply IHf; [|exact Ho|exact EL]. lia.
Qed.

Lemma keeps_fqdn : keeps extract_fqdn.
Proof.
  intros b r b' I. unfold extract_fqdn.
  destruct (fqdn_loop (data b) (fqdn_fuel (data b)) [] None (pos b)) as [r' q] eqn:E.
  intros H; inversion H; subst. split; [reflexivity|]. unfold inv; cbn.
  eapply loop_pos; [exact I| |exact E]. exact Logic.I.
Qed.
