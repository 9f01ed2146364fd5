(** * Octets that no name is read through can be changed without effect on anything else. *)
From Coq Require Import Lia ZifyBool ZifyNat ZifyN.
From Verif Require Import Base Utf8 Buffer Fqdn Header Types RDataBasic Bitmap Svcb RDataSec RData Packet BaseFacts BufferFacts NameSpec FqdnLoop FqdnFacts HeaderSpec HeaderFacts WireFacts PatchSpec.
Ltac Zify.zify_post_hook ::= Z.div_mod_to_equations.

Lemma nth_cut {X} (d : list X) n p x : nth_error (firstn n d) p = Some x -> nth_error d p = Some x.
Proof. revert n p. induction d as [|y d IH]; intros [|n] [|p] E; cbn in *; try discriminate; [exact E|]. eapply IH, E. Qed.
Lemma nth_firstn_lt {X} (d : list X) n p : (p < n)%nat -> nth_error (firstn n d) p = nth_error d p.
Proof. revert n p. induction d as [|y d IH]; intros [|n] [|p] E; cbn in *; try lia; try reflexivity. apply IH. lia. Qed.
Lemma nth_skip {X} (d : list X) n p : nth_error (skipn n d) p = nth_error d (n + p).
Proof. revert n. induction d as [|y d IH]; intros [|n]; cbn; try reflexivity; [destruct p; reflexivity|apply IH]. Qed.
Lemma nth_ext {X} (l l' : list X) : (forall i, nth_error l i = nth_error l' i) -> l = l'.
Proof.
  revert l'. induction l as [|x l IH]; intros [|y l'] H; try reflexivity; try (specialize (H 0%nat); discriminate H).
  f_equal; [specialize (H 0%nat); injection H as ->; reflexivity|]. apply IH. intros i. apply (H (S i)).
Qed.
Lemma looks_cut d k p q : looks (firstn k d) p q -> looks d p q.
Proof.
  induction 1 as [p|p n i E L I|p n q E L NZ _ IH|p n E L|p n m q E L M _ IH]; [apply looks_here|eapply looks_text|eapply looks_next|eapply looks_second|eapply looks_jump];
    try eassumption; eapply nth_cut; eassumption.
Qed.
Lemma byte_list_cut n (d : bytes) : byte_list d -> byte_list (firstn n d).
Proof. unfold byte_list. intros F. rewrite <- (firstn_skipn n d) in F. apply Forall_app in F. apply F. Qed.

Section Swap.
(** The octets that may differ. *)
Context (D : nat -> Prop).
Definition safe (d : bytes) : Prop := byte_list d /\ forall q, pointed_at d q -> ~ D q.
Definition twin (d d' : bytes) : Prop := length d' = length d /\ forall q, ~ D q -> nth_error d' q = nth_error d q.
Definition rel (b b' : buf) : Prop := safe (data b) /\ twin (data b) (data b') /\ pos b' = pos b /\ (pos b <= length (data b))%nat.
(** What is read from here on is unchanged, or what is read to the end of a successful run. *)
Definition clear {A} (b : buf) (p : P A) : Prop :=
  (forall q, (pos b <= q)%nat -> ~ D q) \/ exists x, fst (p b) = Ok x /\ forall q, (pos b <= q < pos (snd (p b)))%nat -> ~ D q.
(** Data is never changed, and a successful run goes forward. *)
Definition forwards {A} (p : P A) : Prop := forall b, data (snd (p b)) = data b /\
  ((pos b <= length (data b))%nat -> forall x, fst (p b) = Ok x -> (pos b <= pos (snd (p b)) <= length (data b))%nat).
Definition swaps {A} (p : P A) : Prop := forwards p /\ forall b b', rel b b' -> clear b p ->
  p b' = (fst (p b), mkbuf (data b') (pos (snd (p b)))).

Lemma rel_at b b' q : rel b b' -> (q <= length (data b))%nat -> rel (mkbuf (data b) q) (mkbuf (data b') q).
Proof. intros (S & T & _ & _) L. repeat split; try apply S; try apply T; exact L. Qed.
Lemma same_buf b b' : rel b b' -> b' = mkbuf (data b') (pos b). Proof. intros (_ & _ & E & _). destruct b'. cbn in *. subst. reflexivity. Qed.

Lemma sw_const {A} (r : res A) : swaps (fun b => (r, b)).
Proof. split; [intros b; split; [reflexivity|cbn; lia]|]. intros b b' R _. cbn [fst snd]. f_equal. apply same_buf, R. Qed.
Lemma sw_ret {A} (a : A) : swaps (ret a). Proof. apply (sw_const (Ok a)). Qed.
Lemma sw_fail {A} e : swaps (@fail A e). Proof. apply (sw_const (Err e)). Qed.
Lemma sw_lift {A} (r : res A) : swaps (lift r). Proof. apply sw_const. Qed.
Lemma sw_bind {A B} (p : P A) (f : A -> P B) : swaps p -> (forall a, swaps (f a)) -> swaps (bind p f).
Proof.
  intros (Fp & H) K. split.
  - intros b. unfold bind. destruct (Fp b) as (E & G). destruct (p b) as [[a|e| |] b1]; cbn [fst snd] in *; try (split; [exact E|discriminate]).
    destruct (K a) as (Ff & _). destruct (Ff b1) as (E' & G'). split; [congruence|]. intros L x X. specialize (G L a eq_refl). rewrite E in G'. specialize (G' ltac:(lia) x X). lia.
  - intros b b' R C. destruct (Fp b) as (E & G). assert (L : (pos b <= length (data b))%nat) by apply R.
    assert (Cp : clear b p).
    { destruct C as [C|(x & X & C)]; [left; exact C|]. right. unfold bind in X, C. destruct (p b) as [[a|e| |] b1]; cbn [fst snd] in *; try discriminate X.
      exists a. split; [reflexivity|]. intros q Q. apply C. specialize (G L a eq_refl). destruct (K a) as (Ff & _). destruct (Ff b1) as (_ & G'). rewrite E in G'. specialize (G' ltac:(lia) x X). lia. }
    unfold bind. rewrite (H b b' R Cp). clear Cp. unfold clear, bind in C. destruct (p b) as [[a|e| |] b1]; cbn [fst snd] in *; try reflexivity.
    specialize (G L a eq_refl). destruct (K a) as (Ff & Kf). specialize (Kf b1 (mkbuf (data b') (pos b1))). cbn [data] in Kf. apply Kf.
    + destruct R as (S & T & _ & _). unfold rel. cbn [data pos]. rewrite E. repeat split; try apply S; try apply T; lia.
    + destruct C as [C|(x & X & C)]; [left; intros q Q; apply C; lia|]. right. exists x. split; [exact X|]. intros q Q. apply C. lia.
Qed.
Lemma remaining_rel b b' : rel b b' -> remaining b' = remaining b.
Proof. intros (_ & (L & _) & P & _). unfold remaining. rewrite L, P. reflexivity. Qed.
Lemma slice_twin d d' q n : twin d d' -> (forall i, (q <= i < q + n)%nat -> ~ D i) -> slice d' q n = slice d q n.
Proof.
  intros (L & T) C. apply nth_ext. intros i. unfold slice. destruct (Nat.lt_ge_cases i n).
  - rewrite !nth_firstn_lt, !nth_skip by assumption. apply T, C. lia.
  - assert (forall e : bytes, nth_error (firstn n (skipn q e)) i = None) as Z by (intros e; apply nth_error_None; rewrite firstn_length; lia). rewrite !Z. reflexivity.
Qed.
Lemma sw_bytes n : swaps (extract_bytes n).
Proof.
  split.
  - intros b. unfold extract_bytes. destruct (Nat.ltb_spec (length (data b)) (pos b + n)); cbn [fst snd data pos]; (split; [reflexivity|]); [discriminate|lia].
  - intros b b' R C. unfold clear, extract_bytes in C. unfold extract_bytes. destruct R as (S & (L & T) & P & Q). rewrite L, P.
    destruct (Nat.ltb_spec (length (data b)) (pos b + n)); cbn [fst snd data pos] in *; [f_equal; destruct b'; cbn in *; subst; reflexivity|].
    f_equal. f_equal. apply slice_twin; [split; assumption|]. intros i I. destruct C as [C|(x & _ & C)]; apply C; lia.
Qed.
Lemma sw_advance n : swaps (advance n).
Proof.
  split.
  - intros b. unfold advance. destruct (Nat.ltb_spec (length (data b)) (pos b + n)); cbn [fst snd data pos]; (split; [reflexivity|]); [discriminate|lia].
  - intros b b' R C. unfold advance. destruct R as (S & (L & T) & P & Q). rewrite L, P.
    destruct (Nat.ltb_spec (length (data b)) (pos b + n)); cbn [fst snd data pos] in *; [f_equal; destruct b'; cbn in *; subst; reflexivity|reflexivity].
Qed.
Lemma sw_fuel {A} (p : nat -> P A) : (forall n, swaps (p n)) -> swaps (fun b => p (remaining b) b).
Proof.
  intros H. split; [intros b; apply (H (remaining b))|]. intros b b' R C. rewrite (remaining_rel b b' R). apply (H (remaining b)); [exact R|exact C].
Qed.
Lemma sw_rest : swaps extract_rest. Proof. apply (sw_fuel extract_bytes), sw_bytes. Qed.
Lemma sw_while {A} (s : A -> P A) : (forall a, swaps (s a)) -> forall f a, swaps (while_remaining f s a).
Proof.
  intros H. induction f as [|f IH]; intros a.
  - apply (sw_fuel (fun n b => if (n =? 0)%nat then (Ok a, b) else (Diverge, b))). intros n. destruct (n =? 0)%nat; apply sw_const.
  - apply (sw_fuel (fun n b => if (n =? 0)%nat then (Ok a, b) else (bind (s a) (while_remaining f s)) b)). intros n. destruct (n =? 0)%nat; [apply (sw_const (Ok a))|].
    apply (sw_bind (s a)); [apply H|exact IH].
Qed.
Lemma sw_loop {A} (s : A -> P A) a : (forall a, swaps (s a)) -> swaps (loop_remaining s a).
Proof. intros H. apply (sw_fuel (fun n => while_remaining n s a)). intros n. apply sw_while, H. Qed.
Lemma sw_repeat {A} (p : P A) n : swaps p -> swaps (repeatP n p).
Proof. intros H. induction n as [|n IH]; [apply sw_ret|]. apply sw_bind; [exact H|]. intros a. apply sw_bind; [exact IH|]. intros l. apply sw_ret. Qed.

(** Names. *)
Lemma loop_inside d d' : byte_list d -> twin d d' -> forall f acc o p, (forall q, looks d p q -> ~ D q) ->
  fqdn_loop d' f acc (Some o) p = fqdn_loop d f acc (Some o) p.
Proof.
  intros B T. induction f as [|f IH]; intros acc o p C; [reflexivity|]. cbn [fqdn_loop]. destruct (T) as (L & N). rewrite (N p) by (apply C, looks_here).
  destruct (nth_error d p) as [n|] eqn:E; [|reflexivity]. assert (Bn := byte_at d p n B E). rewrite mask_byte by exact Bn. unfold peek_bytes. cbn [data pos]. rewrite L.
  destruct (N.leb_spec 192 n) as [G|G].
  - destruct (Nat.ltb_spec (length d) (p + 2)) as [S|S]; [reflexivity|].
    rewrite (slice_twin d d' p 2 T); [|intros i I; apply C; assert (i = p \/ i = p + 1)%nat as [-> | ->] by lia; [apply looks_here|eapply looks_second; eassumption]].
    destruct (nth_error d (p + 1)) as [m|] eqn:M; [|apply nth_error_None in M; lia]. assert (Bm := byte_at d _ m B M).
    rewrite (slice2 d p n m E M), ptr_target by lia. destruct (o <=? _)%nat; [reflexivity|]. apply IH. intros q Q. apply C. eapply looks_jump; eassumption.
  - destruct (Nat.ltb_spec (length d) (p + N.to_nat n)); [reflexivity|]. destruct (N.eqb_spec n 0) as [Z|Z]; [reflexivity|].
    destruct (Nat.ltb_spec (length d) (p + 1 + N.to_nat n)); [reflexivity|].
    rewrite (slice_twin d d' (p + 1) (N.to_nat n) T); [|intros i I; apply C; replace i with (p + (i - p))%nat by lia; eapply looks_text; [exact E|exact G|lia]].
    apply IH. intros q Q. apply C. eapply looks_next; eassumption.
Qed.
Lemma loop_ends d f : forall acc o p, match o with Some o => (o + 1 <= length d)%nat | None => (p <= length d)%nat end -> forall l, fst (fqdn_loop d f acc o p) = Ok l ->
  match o with Some o => snd (fqdn_loop d f acc (Some o) p) = (o + 1)%nat | None => (p < snd (fqdn_loop d f acc None p) <= length d)%nat end.
Proof.
  induction f as [|f IH]; intros acc o p I l; [discriminate|]. cbn [fqdn_loop].
  destruct (nth_error d p) as [n|] eqn:E; [|discriminate]. assert (Pl : (p < length d)%nat) by (apply nth_error_Some; congruence).
  destruct (N.land n COMPRESSION_MASK =? COMPRESSION_MASK).
  - unfold peek_bytes. cbn [data pos]. destruct (Nat.ltb_spec (length d) (p + 2)); [discriminate|]. set (u := N.to_nat _). destruct o as [o|].
    + destruct (o <=? u)%nat; [discriminate|]. apply (IH acc (Some o) u I).
    + destruct (p + 1 <=? u)%nat; [discriminate|]. intros X. rewrite (IH acc (Some (p + 1)%nat) u ltac:(cbn beta iota; lia) l X). lia.
  - destruct (Nat.ltb_spec (length d) (p + N.to_nat n)); [discriminate|]. destruct (n =? 0); [destruct o as [o|]; cbn [fst snd]; [reflexivity|lia]|].
    destruct (Nat.ltb_spec (length d) (p + 1 + N.to_nat n)); [discriminate|]. intros X. specialize (IH _ o (p + 1 + N.to_nat n)%nat ltac:(destruct o; cbn beta iota in *; lia) l X). destruct o; [exact IH|lia].
Qed.
Lemma loop_outside d d' : safe d -> twin d d' -> forall f acc p, (p <= length d)%nat ->
  ((forall q, (p <= q)%nat -> ~ D q) \/ exists x, fst (fqdn_loop d f acc None p) = Ok x /\ forall q, (p <= q < snd (fqdn_loop d f acc None p))%nat -> ~ D q) ->
  fqdn_loop d' f acc None p = fqdn_loop d f acc None p.
Proof.
  intros (B & Sf) T. induction f as [|f IH]; intros acc p Lp C; [reflexivity|].
  assert (Cp : ~ D p).
  { destruct C as [C|(y & Y & C)]; apply C; [lia|]. assert (H := loop_ends d (S f) acc None p Lp y Y). cbn beta iota in H. lia. }
  cbn [fqdn_loop] in *. destruct (T) as (L & N). rewrite (N p) by exact Cp.
  destruct (nth_error d p) as [n|] eqn:E; [|reflexivity]. assert (Bn := byte_at d p n B E). rewrite mask_byte in * by exact Bn. unfold peek_bytes in *. cbn [data pos] in *. rewrite L.
  assert (Pl : (p < length d)%nat) by (apply nth_error_Some; congruence).
  destruct (N.leb_spec 192 n) as [G|G].
  - destruct (Nat.ltb_spec (length d) (p + 2)) as [K|K]; [reflexivity|].
    destruct (nth_error d (p + 1)) as [m|] eqn:M; [|apply nth_error_None in M; lia]. assert (Bm := byte_at d _ m B M).
    assert (J : forall q, looks d (target n m) q -> ~ D q) by (intros q Q; apply Sf; exists p, n, m; repeat split; assumption).
    rewrite (slice2 d p n m E M), ptr_target in * by lia. fold (target n m) in *.
    assert (Q1 : ~ D (p + 1)%nat).
    { destruct C as [C|(x & X & C)]; [apply C; lia|]. apply C. destruct (p + 1 <=? target n m)%nat; [discriminate X|].
      rewrite (loop_ends d f acc (Some (p + 1)%nat) (target n m) ltac:(cbn beta iota; lia) x X). lia. }
    rewrite (slice_twin d d' p 2 T) by (intros i I; assert (i = p \/ i = p + 1)%nat as [-> | ->] by lia; assumption).
    rewrite (slice2 d p n m E M), ptr_target by lia. fold (target n m). destruct (p + 1 <=? target n m)%nat; [reflexivity|]. apply loop_inside; assumption.
  - destruct (Nat.ltb_spec (length d) (p + N.to_nat n)); [reflexivity|]. destruct (N.eqb_spec n 0) as [Z|Z]; [reflexivity|].
    destruct (Nat.ltb_spec (length d) (p + 1 + N.to_nat n)); [reflexivity|].
    rewrite (slice_twin d d' (p + 1) (N.to_nat n) T).
    + apply IH; [lia|]. destruct C as [C|(x & X & C)]; [left; intros q Q; apply C; lia|]. right. exists x. split; [exact X|]. intros q Q. apply C. lia.
    + intros i I. destruct C as [C|(x & X & C)]; [apply C; lia|]. apply C. assert (J := loop_ends d f (acc ++ [slice d (p + 1) (N.to_nat n)]) None (p + 1 + N.to_nat n)%nat ltac:(cbn beta iota; lia) x X). cbn beta iota in J. lia.
Qed.
Lemma sw_fqdn : swaps extract_fqdn.
Proof.
  split.
  - intros b. unfold extract_fqdn. assert (J := loop_ends (data b) (fqdn_fuel (data b)) [] None (pos b)). cbn beta iota in J.
    destruct (fqdn_loop (data b) (fqdn_fuel (data b)) [] None (pos b)) as [r q]. cbn [fst snd data pos] in *. split; [reflexivity|]. intros L x X. specialize (J L x X). lia.
  - intros b b' (S & T & P & L) C. unfold clear, extract_fqdn in C. unfold extract_fqdn. rewrite P. unfold fqdn_fuel in *. rewrite (proj1 T).
    rewrite (loop_outside (data b) (data b') S T); [| exact L|]; destruct (fqdn_loop (data b) (2 * length (data b) + 3) [] None (pos b)) as [r q]; [reflexivity|exact C].
Qed.
Lemma sub_rel b b' n sb : rel b b' -> sub_buffer b n = Ok sb -> exists sb', sub_buffer b' n = Ok sb' /\ rel sb sb' /\ pos sb = pos b /\ length (data sb) = (pos b + n)%nat.
Proof.
  intros ((B & S) & (L & T) & P & Q). unfold sub_buffer. rewrite L, P. destruct (Nat.ltb_spec (length (data b)) (pos b + n)); [discriminate|]. intros [= <-].
  eexists. split; [reflexivity|]. cbn [data pos]. rewrite firstn_length. split; [|split; [reflexivity|lia]]. unfold rel, safe, twin. cbn [data pos]. rewrite !firstn_length.
  split; [split; [apply byte_list_cut, B|]|split; [split; [lia|]|split; [reflexivity|lia]]].
  - intros q (i & u & m & E & G & M & K). apply S. exists i, u, m. split; [eapply nth_cut, E|]. split; [exact G|]. split; [eapply nth_cut, M|eapply looks_cut, K].
  - intros q NQ. destruct (Nat.lt_ge_cases q (pos b + n)); [rewrite !nth_firstn_lt by assumption; apply T, NQ|].
    assert (forall e : bytes, nth_error (firstn (pos b + n) e) q = None) as Z by (intros e; apply nth_error_None; rewrite firstn_length; lia). rewrite !Z. reflexivity.
Qed.
Lemma sub_err b b' n : rel b b' -> (forall sb, sub_buffer b n <> Ok sb) -> exists e, sub_buffer b n = Err e /\ sub_buffer b' n = Err e.
Proof.
  intros (_ & (L & _) & P & _) H. unfold sub_buffer in *. rewrite L, P. destruct (Nat.ltb_spec (length (data b)) (pos b + n)); [eexists; split; reflexivity|]. exfalso. eapply H. reflexivity.
Qed.
Lemma sw_framed {A} n (p : P A) : swaps p -> swaps (framed n p).
Proof.
  intros (Fp & H). assert (Ad := sw_advance n). split.
  - intros b. unfold framed. destruct (sub_buffer b n) as [sb| | |]; try (split; [reflexivity|discriminate]).
    destruct (p sb) as [[a|e| |] b1]; try (split; [reflexivity|discriminate]). apply (sw_bind (advance n) (fun _ => ret a) Ad (fun _ => sw_ret a)).
  - intros b b' R C. unfold clear in C. unfold framed in *. destruct (sub_buffer b n) as [sb|e0| |] eqn:E.
    2-4: destruct (sub_err b b' n R) as (e & E1 & E2); [intros sb; rewrite E; discriminate|]; rewrite E in E1; try discriminate E1; injection E1 as <-; rewrite E2; cbn [fst snd]; rewrite (same_buf b b' R) at 1; reflexivity.
    destruct (sub_rel b b' n sb R E) as (sb' & E' & R' & Ps & Ls). rewrite E'. destruct (Fp sb) as (_ & G). rewrite Ps, Ls in G.
    assert (Cs : clear sb p).
    { destruct C as [C|(x & X & C)]; [left; rewrite Ps; exact C|]. right. destruct (p sb) as [[a|e| |] b1]; try discriminate X. exists a. split; [reflexivity|].
      intros q Q. apply C. cbn [fst snd] in *. specialize (G ltac:(lia) a eq_refl). rewrite Ps in Q. unfold bind, advance in *.
      destruct (Nat.ltb_spec (length (data b)) (pos b + n)); cbn [fst snd ret data pos] in *; [discriminate X|]. lia. }
    rewrite (H sb sb' R' Cs). destruct (p sb) as [[a|e| |] b1]; cbn [fst snd]; try (rewrite (same_buf b b' R) at 1; reflexivity).
    apply (sw_bind (advance n) (fun _ => ret a) Ad (fun _ => sw_ret a)); [exact R|exact C].
Qed.

Create HintDb sw discriminated.
#[local] Hint Resolve sw_ret sw_fail sw_lift sw_bytes sw_advance sw_rest sw_loop sw_repeat sw_fqdn : sw.
Ltac sw := repeat first [solve [auto with sw nocore]|apply sw_loop; intros ?|apply sw_repeat|apply sw_bind; [|intros ?]|
  match goal with |- swaps (if ?x then _ else _) => destruct x end|match goal with |- swaps (match ?x with _ => _ end) => destruct x end].
Lemma sw_u8 : swaps extract_u8. Proof. unfold extract_u8. sw. Qed.
Lemma sw_u16 : swaps extract_u16. Proof. unfold extract_u16. sw. Qed.
Lemma sw_u32 : swaps extract_u32. Proof. unfold extract_u32. sw. Qed.
#[local] Hint Resolve sw_u8 sw_u16 sw_u32 : sw.
Lemma sw_u8_as {A} (f : N -> res A) : swaps (extract_u8_as f). Proof. unfold extract_u8_as. sw. Qed.
Lemma sw_u16_as {A} (f : N -> res A) : swaps (extract_u16_as f). Proof. unfold extract_u16_as. sw. Qed.
Lemma sw_cs : swaps extract_character_string. Proof. unfold extract_character_string. sw. Qed.
#[local] Hint Resolve sw_u8_as sw_u16_as sw_cs : sw.
Lemma sw_string : swaps extract_string. Proof. unfold extract_string. sw. Qed.
#[local] Hint Resolve sw_string : sw.
Lemma sw_header : swaps header_try_from. Proof. unfold header_try_from. sw. Qed.
Lemma sw_hip : swaps hip_try_from.
Proof.
  unfold hip_try_from. sw. apply (sw_fuel (fun n b => if (n =? 0)%nat then _ else _ b)). intros n. destruct (n =? 0)%nat; [apply sw_const|].
  apply sw_bind; [|intros; apply sw_ret]. apply sw_loop. intros x. unfold names_step. sw.
Qed.
Lemma sw_types c : swaps (types_try_from c).
Proof. unfold types_try_from, window_step. sw. Qed.
Lemma sw_mandatory c f : forall n acc, swaps (mandatory_loop c f n acc).
Proof.
  induction f as [|f IH]; intros n acc; cbn [mandatory_loop]; destruct (n =? 0); try apply sw_const.
  apply sw_bind; [apply sw_u16_as|]. intros k. apply sw_bind; [apply sw_lift|]. intros l. apply IH.
Qed.
Lemma sw_alpn c f : forall n acc, swaps (alpn_loop c f n acc).
Proof.
  induction f as [|f IH]; intros n acc; cbn [alpn_loop]; destruct (n =? 0); try apply sw_const.
  apply sw_bind; [apply sw_u8|]. intros k. apply sw_bind; [apply sw_bytes|]. intros l. apply sw_bind; [apply sw_lift|]. intros ?. apply IH.
Qed.
Lemma sw_param c : swaps (param_try_from c).
Proof.
  unfold param_try_from. sw.
  - apply (sw_fuel (fun n => mandatory_loop c (S n) _ [])). intros n. apply sw_mandatory.
  - apply (sw_fuel (fun n => alpn_loop c (S n) _ [])). intros n. apply sw_alpn.
Qed.
Lemma sw_param_step c acc : swaps (param_step c acc).
Proof.
  destruct (sw_param c) as (Fp & H). split.
  - intros b. unfold param_step. destruct (sub_buffer b (remaining b)) as [sb| | |] eqn:E; try (split; [reflexivity|discriminate]).
    destruct (Fp sb) as (_ & G). destruct (param_try_from c sb) as [[x|e| |] sb']; cbn [fst snd] in *; try (split; [reflexivity|discriminate]).
    unfold bind, set_position, ret. destruct (Nat.ltb_spec (length (data b)) (pos sb')); cbn [fst snd data pos]; (split; [reflexivity|]); [discriminate|]. intros L y _.
    unfold sub_buffer in E. destruct (Nat.ltb_spec (length (data b)) (pos b + remaining b)); [discriminate|]. injection E as <-. cbn [data pos] in G. rewrite firstn_length in G. specialize (G ltac:(unfold remaining; lia) x eq_refl). lia.
  - intros b b' R C. unfold clear in C. unfold param_step in *. rewrite (remaining_rel b b' R). destruct (sub_buffer b (remaining b)) as [sb|e0| |] eqn:E.
    2-4: destruct (sub_err b b' (remaining b) R) as (e & E1 & E2); [intros sb; rewrite E; discriminate|]; rewrite E in E1; try discriminate E1; injection E1 as <-; rewrite E2; cbn [fst snd]; rewrite (same_buf b b' R) at 1; reflexivity.
    destruct (sub_rel b b' _ sb R E) as (sb' & E' & R' & Ps & Ls). rewrite E'. assert (Q : (pos b <= length (data b))%nat) by apply R. unfold remaining in Ls.
    destruct (Fp sb) as (_ & G). rewrite Ps, Ls in G. destruct R as (S & (L & T) & P & _).
    assert (Cs : clear sb (param_try_from c)).
    { destruct C as [C|(x & X & C)]; [left; rewrite Ps; exact C|]. right. destruct (param_try_from c sb) as [[a|e| |] b1]; try discriminate X. exists a. split; [reflexivity|].
      intros q I. apply C. cbn [fst snd] in *. specialize (G ltac:(lia) a eq_refl). rewrite Ps in I. unfold bind, set_position in *.
      destruct (Nat.ltb_spec (length (data b)) (pos b1)); cbn [fst snd ret data pos] in *; [discriminate X|]. lia. }
    rewrite (H sb sb' R' Cs). destruct (param_try_from c sb) as [[a|e| |] b1]; cbn [fst snd data pos] in *; try (f_equal; destruct b'; cbn in *; subst; reflexivity).
    unfold bind, set_position, ret. rewrite L. destruct (Nat.ltb_spec (length (data b)) (pos b1)); cbn [fst snd data pos]; [f_equal; destruct b'; cbn in *; subst; reflexivity|reflexivity].
Qed.
#[local] Hint Resolve sw_hip sw_types sw_param_step : sw.
Lemma sw_rdata c t : swaps (rdata_from c t).
Proof.
  destruct t; cbn [rdata_from]; unfold pmap; (apply sw_bind; [|intros; apply sw_ret]);
  unfold a_try_from, name_try_from, opaque_try_from, eui48_try_from, eui64_try_from, aaaa_try_from, apl_try_from, caa_try_from, dhcid_try_from, hinfo_try_from,
    ipseckey_try_from, loc_try_from, minfo_try_from, mx_try_from, naptr_try_from, opt_try_from, opt_step, soa_try_from, srv_try_from, sshfp_try_from,
    tlsa_try_from, tkey_try_from, tsig_try_from, txt_try_from, txt_step, uri_try_from, wks_try_from, csync_try_from, svcb_try_from, nsec_try_from, dnskey_try_from,
    ds_try_from, rrsig_try_from; solve [apply sw_hip|sw].
Qed.
Lemma sw_question c : swaps (question_try_from c). Proof. unfold question_try_from. sw. Qed.
Lemma sw_rr c : swaps (rr_try_from c).
Proof. unfold rr_try_from. sw. apply sw_framed, sw_rdata. Qed.
#[local] Hint Resolve sw_header sw_question sw_rr : sw.
Lemma sw_packet c : swaps (packet_try_from_buf c).
Proof. unfold packet_try_from_buf. sw. Qed.
(** Everything behind the first four octets. *)
Definition body (c : cfg) : P ((N * N * N * N) * (list question * list rr * list rr * list rr)) :=
  q <- extract_u16 ;; a <- extract_u16 ;; n <- extract_u16 ;; d <- extract_u16 ;;
  qs <- repeatP (N.to_nat q) (question_try_from c) ;; an <- repeatP (N.to_nat a) (rr_try_from c) ;;
  au <- repeatP (N.to_nat n) (rr_try_from c) ;; ad <- repeatP (N.to_nat d) (rr_try_from c) ;; ret ((q, a, n, d), (qs, an, au, ad)).
Lemma sw_body c : swaps (body c).
Proof. unfold body. sw. Qed.
(** A successful run that ends before the changed octets, and one that starts behind them. *)
Lemma before {A} (p : P A) b b' x b1 : swaps p -> rel b b' -> p b = (Ok x, b1) -> (forall q, (pos b <= q < pos b1)%nat -> ~ D q) ->
  p b' = (Ok x, mkbuf (data b') (pos b1)) /\ data b1 = data b /\ (pos b <= pos b1 <= length (data b))%nat.
Proof.
  intros (F & H) R E C. destruct (F b) as (F1 & F2). rewrite E in F1, F2. cbn [fst snd] in F1, F2. split; [|split; [exact F1|apply (F2 ltac:(apply R) x eq_refl)]].
  rewrite (H b b' R); rewrite ?E; [reflexivity|]. right. exists x. rewrite E. split; [reflexivity|exact C].
Qed.
Lemma after {A} (p : P A) b b' x b1 : swaps p -> rel b b' -> p b = (Ok x, b1) -> (forall q, (pos b <= q)%nat -> ~ D q) ->
  p b' = (Ok x, mkbuf (data b') (pos b1)) /\ data b1 = data b /\ (pos b <= pos b1 <= length (data b))%nat.
Proof. intros S R E C. apply (before p b b' x b1 S R E). intros q Q. apply C. lia. Qed.
End Swap.

(** The two parts of a message: the first four octets and the rest. *)
Definition header_of (h : bytes) (n : N * N * N * N) : header :=
  let '(q, a, u, d) := n in mkheader (unbe (firstn 2 h)) (flags_from_bytes (skipn 2 h)) q a u d.
Definition packet_of (h : bytes) (x : (N * N * N * N) * (list question * list rr * list rr * list rr)) : packet :=
  let '(n, (qs, an, au, ad)) := x in mkPacket (header_of h n) qs an au ad.
Lemma parse_parts c h t : length h = 4%nat ->
  packet_try_from c (h ++ t) = match fst (body c (mkbuf (h ++ t) 4)) with Ok x => Ok (packet_of h x) | Err e => Err e | Panic => Panic | Diverge => Diverge end.
Proof.
  intros L. destruct h as [|h0 [|h1 [|h2 [|h3 [|]]]]]; try discriminate L. unfold packet_try_from, buf_from, packet_try_from_buf, header_try_from, body.
  set (d := [h0; h1; h2; h3] ++ t). unfold bind at 1 2. unfold extract_u16 at 1. unfold bind at 1. unfold extract_bytes at 1. cbn [data pos].
  destruct (Nat.ltb_spec (length d) (0 + 2)) as [X|_]; [unfold d in X; cbn in X; lia|]. change (slice d 0 2) with [h0; h1]. cbn [ret].
  unfold bind at 1. unfold extract_bytes at 1. cbn [data pos]. destruct (Nat.ltb_spec (length d) (0 + 2 + 2)) as [X|_]; [unfold d in X; cbn in X; lia|].
  change (slice d (0 + 2) 2) with [h2; h3]. change (0 + 2 + 2)%nat with 4%nat. unfold bind, ret.
  repeat match goal with |- context [let (_, _) := ?x in _] => lazymatch x with context [let (_, _) := _ in _] => fail | _ => destruct x as [[?|?| |] ?]; cbn [fst snd ques_count ans_count auth_count add_count]; try reflexivity end end.
Qed.

Definition four (a : nat) (q : nat) : Prop := (a <= q < a + 4)%nat.
Lemma rr_retimed c b r b1 : (pos b <= length (data b))%nat -> rr_try_from c b = (Ok r, b1) -> exists a, (pos b <= a)%nat /\ (a + 4 <= pos b1)%nat /\
  rr_ttl r = unbe (slice (data b) a 4) /\ data b1 = data b /\ (pos b1 <= length (data b))%nat /\
  forall b', rel (four a) b b' -> rr_try_from c b' = (Ok (rr_with_ttl r (unbe (slice (data b') a 4))), mkbuf (data b') (pos b1)).
Proof.
  intros L0 E. set (hd := bind extract_fqdn (fun f => bind (extract_u16_as (rtype_try_from c)) (fun t => bind extract_u16 (fun v => ret (f, t, v))))).
  set (tl := fun t => bind extract_u16 (fun len => framed (N.to_nat len) (rdata_from c t))).
  assert (X : forall b, rr_try_from c b = bind hd (fun x => bind (extract_bytes 4) (fun ttlb => bind (tl (snd (fst x))) (fun d =>
    ret (mkRR (fst (fst x)) (snd (fst x)) (snd (rr_class_field_parse c (snd x))) (fst (rr_class_field_parse c (snd x))) (unbe ttlb) d)))) b).
  { intros b0. unfold rr_try_from, hd, tl, bind, ret. repeat match goal with |- context [let (_, _) := ?x in _] => lazymatch x with context [let (_, _) := _ in _] => fail | _ => destruct x as [[?|?| |] ?]; cbn [fst snd ques_count ans_count auth_count add_count]; try reflexivity end end. }
  assert (Sh : forall D, swaps D hd).
  { intros D. apply sw_bind; [apply sw_fqdn|]. intros f. apply sw_bind; [apply sw_u16_as|]. intros t. apply sw_bind; [apply sw_u16|]. intros v. apply sw_ret. }
  assert (St : forall D t, swaps D (tl t)).
  { intros D t. apply sw_bind; [apply sw_u16|]. intros n. apply sw_framed, sw_rdata. }
  rewrite X in E. unfold bind at 1 in E. destruct (hd b) as [[x|e| |] b2] eqn:Eh; try discriminate E. destruct (proj1 (Sh (fun _ => False)) b) as (D2 & F2). rewrite Eh in D2, F2. cbn [fst snd] in D2, F2.
  specialize (F2 L0 x eq_refl). unfold bind at 1 in E. unfold extract_bytes in E. rewrite D2 in E. destruct (Nat.ltb_spec (length (data b)) (pos b2 + 4)) as [Lt|Ge]; [discriminate E|].
  unfold bind at 1 in E. set (b3 := mkbuf (data b) (pos b2 + 4)) in E. destruct (tl (snd (fst x)) b3) as [[y|e| |] b4] eqn:Et; try discriminate E. injection E as <- <-.
  destruct (proj1 (St (fun _ => False) (snd (fst x))) b3) as (D4 & F4). rewrite Et in D4, F4. cbn [fst snd] in D4, F4. specialize (F4 ltac:(unfold b3; cbn; lia) y eq_refl). unfold b3 in D4, F4. cbn [data pos] in D4, F4.
  exists (pos b2). split; [lia|]. split; [lia|]. split; [reflexivity|]. split; [exact D4|]. split; [lia|]. intros b' R. rewrite X. unfold bind at 1.
  destruct (before (four (pos b2)) hd b b' x b2 (Sh _) R Eh) as (-> & _); [unfold four; intros q Q; lia|]. unfold bind at 1. unfold extract_bytes. cbn [data pos].
  destruct R as (S & T & P & Q). rewrite (proj1 T). destruct (Nat.ltb_spec (length (data b)) (pos b2 + 4)); [lia|]. unfold bind at 1.
  destruct (after (four (pos b2)) (tl (snd (fst x))) b3 (mkbuf (data b') (pos b2 + 4)) y b4 (St _ _)) as (-> & _).
  - unfold rel, b3. cbn [data pos]. repeat split; try apply S; try apply T. exact Ge.
  - exact Et.
  - unfold b3, four. cbn [pos]. intros q I. lia.
  - reflexivity.
Qed.
Lemma repeat_retimed c n : forall b rs b1, (pos b <= length (data b))%nat -> repeatP n (rr_try_from c) b = (Ok rs, b1) -> forall i r, nth_error rs i = Some r ->
  exists a, (pos b <= a)%nat /\ (a + 4 <= pos b1)%nat /\ rr_ttl r = unbe (slice (data b) a 4) /\
  forall b', rel (four a) b b' -> repeatP n (rr_try_from c) b' = (Ok (list_with_ttl i (unbe (slice (data b') a 4)) rs), mkbuf (data b') (pos b1)).
Proof.
  induction n as [|n IH]; intros b rs b1 L E i r N; [injection E as <- <-; destruct i; discriminate N|].
  cbn [repeatP] in E. unfold bind at 1 in E. destruct (rr_try_from c b) as [[x|e| |] b2] eqn:E2; try discriminate E.
  unfold bind at 1 in E. destruct (repeatP n (rr_try_from c) b2) as [[xs|e| |] b3] eqn:E3; try discriminate E. injection E as <- <-.
  destruct (proj1 (sw_rr (fun _ => False) c) b) as (D2 & F2). rewrite E2 in D2, F2. cbn [fst snd] in D2, F2. specialize (F2 L x eq_refl).
  destruct (proj1 (sw_repeat (fun _ => False) _ n (sw_rr _ c)) b2) as (D3 & F3). rewrite E3 in D3, F3. cbn [fst snd] in D3, F3. rewrite D2 in D3, F3. specialize (F3 ltac:(lia) xs eq_refl).
  destruct i as [|i]; cbn [nth_error] in N.
  - injection N as <-. destruct (rr_retimed c b x b2 L E2) as (a & A1 & A2 & A3 & _ & _ & A6). exists a. split; [exact A1|]. split; [lia|]. split; [exact A3|]. intros b' R.
    cbn [repeatP]. unfold bind at 1. rewrite (A6 b' R). unfold bind at 1. destruct R as (S & T & P & Q).
    destruct (after (four a) (repeatP n (rr_try_from c)) b2 (mkbuf (data b') (pos b2)) xs b3 (sw_repeat _ _ n (sw_rr _ c))) as (-> & _).
    + unfold rel. cbn [data pos]. rewrite D2. repeat split; try apply S; try apply T. lia.
    + exact E3.
    + unfold four. intros q I. lia.
    + reflexivity.
  - destruct (IH b2 xs b3 ltac:(rewrite D2; lia) E3 i r N) as (a & A1 & A2 & A3 & A6). exists a. split; [lia|]. split; [lia|]. rewrite D2 in A3. split; [exact A3|]. intros b' R.
    cbn [repeatP]. unfold bind at 1. destruct (before (four a) (rr_try_from c) b b' x b2 (sw_rr _ c) R E2) as (-> & _); [unfold four; intros q Q; lia|].
    unfold bind at 1. rewrite A6; [reflexivity|]. destruct R as (S & T & P & Q). unfold rel. cbn [data pos]. rewrite D2. repeat split; try apply S; try apply T. lia.
Qed.
Lemma packet_retimed c d p s i r : packet_try_from c d = Ok p -> nth_error (records s p) i = Some r ->
  exists a, (a + 4 <= length d)%nat /\ rr_ttl r = unbe (slice d a 4) /\
  forall d', safe (four a) d -> twin (four a) d d' -> packet_try_from c d' = Ok (with_ttl s i (unbe (slice d' a 4)) p).
Proof.
  unfold packet_try_from, buf_from. intros E N. unfold packet_try_from_buf in E. set (b := mkbuf d 0) in E.
  unfold bind at 1 in E. destruct (header_try_from b) as [[h|e| |] b1] eqn:E1; try discriminate E. destruct (proj1 (sw_header (fun _ => False)) b) as (D1 & F1). rewrite E1 in D1, F1. specialize (F1 ltac:(cbn; lia) h eq_refl).
  unfold bind at 1 in E. destruct (repeatP (N.to_nat (ques_count h)) (question_try_from c) b1) as [[qs|e| |] b2] eqn:E2; try discriminate E.
  destruct (proj1 (sw_repeat (fun _ => False) _ (N.to_nat (ques_count h)) (sw_question _ c)) b1) as (D2 & F2). rewrite E2 in D2, F2. cbn [fst snd] in D1, F1, D2, F2. rewrite D1 in D2, F2. specialize (F2 ltac:(lia) qs eq_refl).
  unfold bind at 1 in E. destruct (repeatP (N.to_nat (ans_count h)) (rr_try_from c) b2) as [[an|e| |] b3] eqn:E3; try discriminate E.
  destruct (proj1 (sw_repeat (fun _ => False) _ (N.to_nat (ans_count h)) (sw_rr _ c)) b2) as (D3 & F3). rewrite E3 in D3, F3. cbn [fst snd] in D3, F3. rewrite D2 in D3, F3. specialize (F3 ltac:(lia) an eq_refl).
  unfold bind at 1 in E. destruct (repeatP (N.to_nat (auth_count h)) (rr_try_from c) b3) as [[au|e| |] b4] eqn:E4; try discriminate E.
  destruct (proj1 (sw_repeat (fun _ => False) _ (N.to_nat (auth_count h)) (sw_rr _ c)) b3) as (D4 & F4). rewrite E4 in D4, F4. cbn [fst snd] in D4, F4. rewrite D3 in D4, F4. specialize (F4 ltac:(lia) au eq_refl).
  unfold bind at 1 in E. destruct (repeatP (N.to_nat (add_count h)) (rr_try_from c) b4) as [[ad|e| |] b5] eqn:E5; try discriminate E.
  destruct (proj1 (sw_repeat (fun _ => False) _ (N.to_nat (add_count h)) (sw_rr _ c)) b4) as (D5 & F5). rewrite E5 in D5, F5. cbn [fst snd] in D5, F5. rewrite D4 in D5, F5. specialize (F5 ltac:(lia) ad eq_refl).
  injection E as <-. assert (Rl : forall a d' q, safe (four a) d -> twin (four a) d d' -> (q <= length d)%nat -> rel (four a) (mkbuf d q) (mkbuf d' q)).
  { intros a d' q S T L. repeat split; try apply S; try apply T. exact L. }
  change (data b) with d in *. change (pos b) with 0%nat in *. destruct b1 as [d1 p1], b2 as [d2 p2], b3 as [d3 p3], b4 as [d4 p4], b5 as [d5 p5]. cbn [data pos] in *. subst d1 d2 d3 d4 d5.
  destruct s; cbn [records p_answers p_authorities p_additionals] in N.
  - destruct (repeat_retimed c (N.to_nat (ans_count h)) (mkbuf d p2) an (mkbuf d p3) ltac:(cbn [data pos]; lia) E3 i r N) as (a & A1 & A2 & A3 & A4). cbn [data pos] in *. exists a. split; [lia|]. split; [exact A3|]. intros d' S T.
    unfold packet_try_from_buf, bind at 1.
    destruct (before (four a) _ b (mkbuf d' 0) h (mkbuf d p1) (sw_header _) (Rl a d' 0%nat S T ltac:(lia)) E1) as (-> & _); [unfold four; cbn; intros; lia|]. cbn [data pos]. unfold bind at 1.
    destruct (before (four a) _ (mkbuf d p1) (mkbuf d' p1) qs _ (sw_repeat _ _ _ (sw_question _ c)) (Rl a d' p1 S T ltac:(lia)) E2) as (-> & _); [unfold four; cbn; intros; lia|]. cbn [data pos]. unfold bind at 1.
    rewrite (A4 (mkbuf d' p2) (Rl a d' p2 S T ltac:(lia))). cbn [data pos]. unfold bind at 1.
    destruct (after (four a) _ (mkbuf d p3) (mkbuf d' p3) au _ (sw_repeat _ _ _ (sw_rr _ c)) (Rl a d' p3 S T ltac:(lia)) E4) as (-> & _); [unfold four; cbn; intros; lia|]. cbn [data pos]. unfold bind at 1.
    destruct (after (four a) _ (mkbuf d p4) (mkbuf d' p4) ad _ (sw_repeat _ _ _ (sw_rr _ c)) (Rl a d' p4 S T ltac:(lia)) E5) as (-> & _); [unfold four; cbn; intros; lia|]. reflexivity.
  - destruct (repeat_retimed c (N.to_nat (auth_count h)) (mkbuf d p3) au (mkbuf d p4) ltac:(cbn [data pos]; lia) E4 i r N) as (a & A1 & A2 & A3 & A4). cbn [data pos] in *. exists a. split; [lia|]. split; [exact A3|]. intros d' S T.
    unfold packet_try_from_buf, bind at 1.
    destruct (before (four a) _ b (mkbuf d' 0) h (mkbuf d p1) (sw_header _) (Rl a d' 0%nat S T ltac:(lia)) E1) as (-> & _); [unfold four; cbn; intros; lia|]. cbn [data pos]. unfold bind at 1.
    destruct (before (four a) _ (mkbuf d p1) (mkbuf d' p1) qs _ (sw_repeat _ _ _ (sw_question _ c)) (Rl a d' p1 S T ltac:(lia)) E2) as (-> & _); [unfold four; cbn; intros; lia|]. cbn [data pos]. unfold bind at 1.
    destruct (before (four a) _ (mkbuf d p2) (mkbuf d' p2) an _ (sw_repeat _ _ _ (sw_rr _ c)) (Rl a d' p2 S T ltac:(lia)) E3) as (-> & _); [unfold four; cbn; intros; lia|]. cbn [data pos]. unfold bind at 1.
    rewrite (A4 (mkbuf d' p3) (Rl a d' p3 S T ltac:(lia))). cbn [data pos]. unfold bind at 1.
    destruct (after (four a) _ (mkbuf d p4) (mkbuf d' p4) ad _ (sw_repeat _ _ _ (sw_rr _ c)) (Rl a d' p4 S T ltac:(lia)) E5) as (-> & _); [unfold four; cbn; intros; lia|]. reflexivity.
  - destruct (repeat_retimed c (N.to_nat (add_count h)) (mkbuf d p4) ad (mkbuf d p5) ltac:(cbn [data pos]; lia) E5 i r N) as (a & A1 & A2 & A3 & A4). cbn [data pos] in *. exists a. split; [lia|]. split; [exact A3|]. intros d' S T.
    unfold packet_try_from_buf, bind at 1.
    destruct (before (four a) _ b (mkbuf d' 0) h (mkbuf d p1) (sw_header _) (Rl a d' 0%nat S T ltac:(lia)) E1) as (-> & _); [unfold four; cbn; intros; lia|]. cbn [data pos]. unfold bind at 1.
    destruct (before (four a) _ (mkbuf d p1) (mkbuf d' p1) qs _ (sw_repeat _ _ _ (sw_question _ c)) (Rl a d' p1 S T ltac:(lia)) E2) as (-> & _); [unfold four; cbn; intros; lia|]. cbn [data pos]. unfold bind at 1.
    destruct (before (four a) _ (mkbuf d p2) (mkbuf d' p2) an _ (sw_repeat _ _ _ (sw_rr _ c)) (Rl a d' p2 S T ltac:(lia)) E3) as (-> & _); [unfold four; cbn; intros; lia|]. cbn [data pos]. unfold bind at 1.
    destruct (before (four a) _ (mkbuf d p3) (mkbuf d' p3) au _ (sw_repeat _ _ _ (sw_rr _ c)) (Rl a d' p3 S T ltac:(lia)) E4) as (-> & _); [unfold four; cbn; intros; lia|]. cbn [data pos]. unfold bind at 1.
    rewrite (A4 (mkbuf d' p4) (Rl a d' p4 S T ltac:(lia))). reflexivity.
Qed.

(** ** Writing. *)
Lemma ok_eq {A} (a b : A) : Ok a = Ok b -> a = b. Proof. intros E. injection E as E. exact E. Qed.
Lemma patch_mid (pre x y post : bytes) : length y = length x -> patch (pre ++ x ++ post) (length pre) y = pre ++ y ++ post.
Proof.
  intros L. unfold patch. rewrite firstn_app, Nat.sub_diag, firstn_all. cbn [firstn]. rewrite app_nil_r. f_equal. f_equal. rewrite L.
  rewrite app_assoc, <- app_length, skipn_app, skipn_all, Nat.sub_diag. reflexivity.
Qed.
Lemma list_with_length i t rs : length (list_with_ttl i t rs) = length rs.
Proof. revert i. induction rs as [|r rs IH]; intros [|i]; cbn; auto. Qed.
Lemma list_with_none i t rs : nth_error rs i = None -> list_with_ttl i t rs = rs.
Proof. revert i. induction rs as [|r rs IH]; intros [|i] E; cbn in *; try reflexivity; [discriminate E|]. f_equal. apply IH, E. Qed.
Lemma size_retimed c i t rs : sum_res (rr_byte_size c) (list_with_ttl i t rs) = sum_res (rr_byte_size c) rs.
Proof. revert i. induction rs as [|r rs IH]; intros [|i]; cbn [list_with_ttl sum_res]; try reflexivity. rewrite IH. reflexivity. Qed.
Lemma rr_written c r w : rr_to_bytes c r = Ok w -> exists pre post, w = pre ++ be 4 (rr_ttl r) ++ post /\ forall t, rr_to_bytes c (rr_with_ttl r t) = Ok (pre ++ be 4 t ++ post).
Proof.
  unfold rr_to_bytes. intros E. apply rbind_ok in E. destruct E as (s & E1 & E). apply rbind_ok in E. destruct E as (n & E2 & E). apply rbind_ok in E. destruct E as (d & E3 & E). injection E as <-.
  exists (fqdn_to_bytes (rr_name r) ++ be 2 (rtype_code (rr_type r)) ++ be 2 (rr_class_field c r)), (be 2 (len16 n) ++ d). split; [rewrite <- !app_assoc; reflexivity|].
  intros t. change (rr_byte_size c (rr_with_ttl r t)) with (rr_byte_size c r). rewrite E1. cbn [rbind rr_with_ttl rr_data]. rewrite E2. cbn [rbind]. rewrite E3. cbn [rbind rr_name rr_type rr_ttl]. rewrite <- !app_assoc. reflexivity.
Qed.
Lemma plain_written c rs : forall i r w, concat_res (rr_to_bytes c) rs = Ok w -> nth_error rs i = Some r ->
  exists pre post, w = pre ++ be 4 (rr_ttl r) ++ post /\ forall t, concat_res (rr_to_bytes c) (list_with_ttl i t rs) = Ok (pre ++ be 4 t ++ post).
Proof.
  induction rs as [|x rs IH]; intros [|i] r w E N; cbn in N; try discriminate N; cbn [concat_res] in E; apply rbind_ok in E; destruct E as (b & E1 & E); apply rbind_ok in E; destruct E as (v & E2 & E); injection E as <-.
  - injection N as ->. destruct (rr_written c r b E1) as (pre & post & -> & H). exists pre, (post ++ v). split; [rewrite <- !app_assoc; reflexivity|].
    intros t. cbn [list_with_ttl concat_res]. rewrite H. cbn [rbind]. rewrite E2. cbn [rbind]. rewrite <- !app_assoc. reflexivity.
  - destruct (IH i r v E2 N) as (pre & post & -> & H). exists (b ++ pre), post. split; [rewrite <- !app_assoc; reflexivity|].
    intros t. cbn [list_with_ttl concat_res]. rewrite E1. cbn [rbind]. rewrite H. cbn [rbind]. rewrite <- !app_assoc. reflexivity.
Qed.
Lemma packet_written c p s i r out : packet_to_bytes c p = Ok out -> nth_error (records s p) i = Some r ->
  exists a, slice out a 4 = be 4 (rr_ttl r) /\ forall t, packet_to_bytes c (with_ttl s i t p) = Ok (patch out a (be 4 t)).
Proof.
  unfold packet_to_bytes. intros E N. apply rbind_ok in E. destruct E as (z & E0 & E). apply rbind_ok in E. destruct E as (wa & E1 & E). apply rbind_ok in E. destruct E as (wn & E2 & E).
  apply rbind_ok in E. destruct E as (wd & E3 & E). apply ok_eq in E. subst out.
  assert (Z : forall t, packet_byte_size c (with_ttl s i t p) = Ok z).
  { intros t. rewrite <- E0. unfold packet_byte_size. destruct s; cbn [with_ttl p_answers p_authorities p_additionals p_questions]; rewrite size_retimed; reflexivity. }
  assert (H : forall t, patched_header (with_ttl s i t p) = patched_header p).
  { intros t. unfold patched_header. destruct s; cbn [with_ttl p_header p_answers p_authorities p_additionals p_questions]; rewrite list_with_length; reflexivity. }
  assert (K : exists pre post, patched_header p ++ flat_map (question_to_bytes c) (p_questions p) ++ wa ++ wn ++ wd = pre ++ be 4 (rr_ttl r) ++ post /\
    forall t, (let! a := concat_res (rr_to_bytes c) (p_answers (with_ttl s i t p)) in
      let! n := concat_res (rr_to_bytes c) (p_authorities (with_ttl s i t p)) in
      let! d := concat_res (rr_to_bytes c) (p_additionals (with_ttl s i t p)) in
      Ok (patched_header (with_ttl s i t p) ++ flat_map (question_to_bytes c) (p_questions (with_ttl s i t p)) ++ a ++ n ++ d)) = Ok (pre ++ be 4 t ++ post)).
  { set (hd := patched_header p ++ flat_map (question_to_bytes c) (p_questions p)).
    destruct s; cbn [records] in N; [destruct (plain_written c _ i r _ E1 N) as (pre & post & -> & W)|destruct (plain_written c _ i r _ E2 N) as (pre & post & -> & W)|destruct (plain_written c _ i r _ E3 N) as (pre & post & -> & W)];
      [exists (hd ++ pre), (post ++ wn ++ wd)|exists (hd ++ wa ++ pre), (post ++ wd)|exists (hd ++ wa ++ wn ++ pre), post]; (split; [unfold hd; rewrite <- !app_assoc; reflexivity|]); intros t; rewrite H; cbn [with_ttl p_answers p_authorities p_additionals p_questions];
      rewrite ?W, ?E1, ?E2, ?E3; cbn [rbind]; rewrite ?W, ?E1, ?E2, ?E3; cbn [rbind]; rewrite ?W, ?E1, ?E2, ?E3; cbn [rbind]; unfold hd; rewrite <- !app_assoc; reflexivity. }
  destruct K as (pre & post & -> & W). exists (length pre). split; [pose proof (slice_exact pre (be 4 (rr_ttl r)) post) as X; rewrite be_length in X; exact X|].
  intros t. rewrite Z. cbn [rbind]. rewrite W. f_equal. symmetry. apply patch_mid. rewrite !be_length. reflexivity.
Qed.

Lemma rr_compressed_written c h r m off w m' : rr_to_bytes_compressed c h r m off = Ok (w, m') ->
  exists pre post, w = pre ++ be 4 (rr_ttl r) ++ post /\ forall t, rr_to_bytes_compressed c h (rr_with_ttl r t) m off = Ok (pre ++ be 4 t ++ post, m').
Proof.
  unfold rr_to_bytes_compressed. cbv zeta. cbn [rr_with_ttl rr_name rr_type rr_data rr_ttl]. destruct (fqdn_to_bytes_compressed h (rr_name r) m off) as [nb m1]. intros E. apply rbind_ok in E. destruct E as ([d m2] & E1 & E). injection E as <- <-.
  exists (nb ++ be 2 (rtype_code (rr_type r)) ++ be 2 (rr_class_field c r)), (be 2 (len16 (length d)) ++ d). split; [cbn [fst]; rewrite <- !app_assoc; reflexivity|].
  intros t. change (rr_class_field c (rr_with_ttl r t)) with (rr_class_field c r).
  replace (off + length (nb ++ be 2 (rtype_code (rr_type r)) ++ be 2 (rr_class_field c r) ++ be 4 t) + 2)%nat
    with (off + length (nb ++ be 2 (rtype_code (rr_type r)) ++ be 2 (rr_class_field c r) ++ be 4 (rr_ttl r)) + 2)%nat by (rewrite !app_length, !be_length; reflexivity).
  rewrite E1. cbn [rbind fst snd]. rewrite <- !app_assoc. reflexivity.
Qed.
(** What was written before matters by its length only. *)
Lemma records_length c h rs : forall bin bin' m w m', length bin' = length bin -> records_compressed c h rs bin m = Ok (w, m') ->
  exists x, w = bin ++ x /\ records_compressed c h rs bin' m = Ok (bin' ++ x, m').
Proof.
  induction rs as [|r rs IH]; intros bin bin' m w m' L E; cbn [records_compressed] in *.
  - injection E as <- <-. exists []. rewrite !app_nil_r. split; reflexivity.
  - apply rbind_ok in E. destruct E as ([b m1] & E1 & E). cbn [fst snd] in E. rewrite L, E1. cbn [rbind fst snd].
    destruct (IH (bin ++ b) (bin' ++ b) m1 w m' ltac:(rewrite !app_length, L; reflexivity) E) as (x & -> & ->). exists (b ++ x). rewrite <- !app_assoc. split; reflexivity.
Qed.
Lemma questions_length c h qs : forall bin bin' m w m', length bin' = length bin -> questions_compressed c h qs bin m = (w, m') ->
  exists x, w = bin ++ x /\ questions_compressed c h qs bin' m = (bin' ++ x, m').
Proof.
  induction qs as [|r rs IH]; intros bin bin' m w m' L E; cbn [questions_compressed] in *.
  - injection E as <- <-. exists []. rewrite !app_nil_r. split; reflexivity.
  - rewrite L. destruct (question_to_bytes_compressed c h r m (length bin)) as [b m1].
    destruct (IH (bin ++ b) (bin' ++ b) m1 w m' ltac:(rewrite !app_length, L; reflexivity) E) as (x & -> & ->). exists (b ++ x). rewrite <- !app_assoc. split; reflexivity.
Qed.
Lemma compressed_written c h rs : forall i r bin m w m', records_compressed c h rs bin m = Ok (w, m') -> nth_error rs i = Some r ->
  exists pre post, w = pre ++ be 4 (rr_ttl r) ++ post /\ forall t, records_compressed c h (list_with_ttl i t rs) bin m = Ok (pre ++ be 4 t ++ post, m').
Proof.
  induction rs as [|x rs IH]; intros [|i] r bin m w m' E N; cbn in N; try discriminate N; cbn [records_compressed] in E; apply rbind_ok in E; destruct E as ([b m1] & E1 & E); cbn [fst snd] in E.
  - injection N as ->. destruct (rr_compressed_written c h r m _ b m1 E1) as (pre & post & -> & H).
    destruct (records_length c h rs _ (bin ++ pre ++ be 4 (rr_ttl r) ++ post) _ _ _ eq_refl E) as (x & -> & _). exists (bin ++ pre), (post ++ x). split; [rewrite <- !app_assoc; reflexivity|].
    intros t. cbn [list_with_ttl records_compressed]. rewrite H. cbn [rbind fst snd].
    destruct (records_length c h rs (bin ++ pre ++ be 4 (rr_ttl r) ++ post) (bin ++ pre ++ be 4 t ++ post) _ _ _ ltac:(rewrite !app_length; reflexivity) E) as (x' & X & ->). apply app_inv_head in X. subst x'. rewrite <- !app_assoc. reflexivity.
  - destruct (IH i r _ _ _ _ E N) as (pre & post & -> & H). exists pre, post. split; [reflexivity|].
    intros t. cbn [list_with_ttl records_compressed]. rewrite E1. cbn [rbind fst snd]. apply H.
Qed.
Lemma packet_compressed_written c h p s i r out : packet_to_bytes_compressed c h p = Ok out -> nth_error (records s p) i = Some r ->
  exists a, slice out a 4 = be 4 (rr_ttl r) /\ forall t, packet_to_bytes_compressed c h (with_ttl s i t p) = Ok (patch out a (be 4 t)).
Proof.
  unfold packet_to_bytes_compressed. intros E N. destruct (questions_compressed c h (p_questions p) (header_to_bytes (p_header p)) []) as [w0 m0] eqn:E0.
  apply rbind_ok in E. destruct E as ([w1 m1] & E1 & E). cbn [fst snd] in E. apply rbind_ok in E. destruct E as ([w2 m2] & E2 & E). cbn [fst snd] in E.
  apply rbind_ok in E. destruct E as ([w3 m3] & E3 & E). cbn [fst snd] in E. injection E as <-.
  assert (Q : forall t, questions_compressed c h (p_questions (with_ttl s i t p)) (header_to_bytes (p_header (with_ttl s i t p))) [] = (w0, m0)) by (intros t; rewrite <- E0; destruct s; reflexivity).
  assert (K : exists pre post, w3 = pre ++ be 4 (rr_ttl r) ++ post /\
    forall t, (let! s1 := records_compressed c h (p_answers (with_ttl s i t p)) w0 m0 in
      let! s2 := records_compressed c h (p_authorities (with_ttl s i t p)) (fst s1) (snd s1) in
      let! s3 := records_compressed c h (p_additionals (with_ttl s i t p)) (fst s2) (snd s2) in Ok (fst s3)) = Ok (pre ++ be 4 t ++ post)).
  { destruct s; cbn [records] in N; cbn [with_ttl p_answers p_authorities p_additionals].
    - destruct (compressed_written c h _ i r _ _ _ _ E1 N) as (pre & post & -> & W).
      destruct (records_length c h _ _ (pre ++ be 4 (rr_ttl r) ++ post) _ _ _ eq_refl E2) as (x & -> & _). destruct (records_length c h _ _ ((pre ++ be 4 (rr_ttl r) ++ post) ++ x) _ _ _ eq_refl E3) as (y & -> & _).
      exists pre, (post ++ x ++ y). split; [rewrite <- !app_assoc; reflexivity|]. intros t. rewrite W. cbn [rbind fst snd].
      destruct (records_length c h _ (pre ++ be 4 (rr_ttl r) ++ post) (pre ++ be 4 t ++ post) _ _ _ ltac:(rewrite !app_length; reflexivity) E2) as (x' & X & ->). apply app_inv_head in X. subst x'. cbn [rbind fst snd].
      destruct (records_length c h _ ((pre ++ be 4 (rr_ttl r) ++ post) ++ x) ((pre ++ be 4 t ++ post) ++ x) _ _ _ ltac:(rewrite !app_length; reflexivity) E3) as (y' & X & ->). apply app_inv_head in X. subst y'. cbn [rbind fst snd]. rewrite <- !app_assoc. reflexivity.
    - destruct (compressed_written c h _ i r _ _ _ _ E2 N) as (pre & post & -> & W).
      destruct (records_length c h _ _ (pre ++ be 4 (rr_ttl r) ++ post) _ _ _ eq_refl E3) as (y & -> & _).
      exists pre, (post ++ y). split; [rewrite <- !app_assoc; reflexivity|]. intros t. rewrite E1. cbn [rbind fst snd]. rewrite W. cbn [rbind fst snd].
      destruct (records_length c h _ (pre ++ be 4 (rr_ttl r) ++ post) (pre ++ be 4 t ++ post) _ _ _ ltac:(rewrite !app_length; reflexivity) E3) as (y' & X & ->). apply app_inv_head in X. subst y'. cbn [rbind fst snd]. rewrite <- !app_assoc. reflexivity.
    - destruct (compressed_written c h _ i r _ _ _ _ E3 N) as (pre & post & -> & W).
      exists pre, post. split; [reflexivity|]. intros t. rewrite E1. cbn [rbind fst snd]. rewrite E2. cbn [rbind fst snd]. rewrite W. reflexivity. }
  destruct K as (pre & post & -> & W). exists (length pre). split; [pose proof (slice_exact pre (be 4 (rr_ttl r)) post) as X; rewrite be_length in X; exact X|].
  intros t. rewrite Q. rewrite W. f_equal. symmetry. apply patch_mid. rewrite !be_length. reflexivity.
Qed.

Lemma patch_zero (x y post : bytes) : length y = length x -> patch (x ++ post) 0 y = y ++ post.
Proof. intros L. apply (patch_mid [] x y post L). Qed.
Lemma packet_id_written c p i out : packet_to_bytes c p = Ok out -> slice out 0 2 = be 2 (id (p_header p)) /\ packet_to_bytes c (with_id i p) = Ok (patch out 0 (be 2 i)).
Proof.
  unfold packet_to_bytes. intros E. apply rbind_ok in E. destruct E as (z & E0 & E). apply rbind_ok in E. destruct E as (wa & E1 & E). apply rbind_ok in E. destruct E as (wn & E2 & E).
  apply rbind_ok in E. destruct E as (wd & E3 & E). apply ok_eq in E; subst out. change (packet_byte_size c (with_id i p)) with (packet_byte_size c p). rewrite E0. cbn [rbind with_id p_answers p_authorities p_additionals].
  rewrite E1. cbn [rbind]. rewrite E2. cbn [rbind]. rewrite E3. cbn [rbind p_questions]. split; [reflexivity|]. f_equal.
Qed.
Lemma packet_id_compressed c h p i out : packet_to_bytes_compressed c h p = Ok out -> slice out 0 2 = be 2 (id (p_header p)) /\ packet_to_bytes_compressed c h (with_id i p) = Ok (patch out 0 (be 2 i)).
Proof.
  unfold packet_to_bytes_compressed. intros E. destruct (questions_compressed c h (p_questions p) (header_to_bytes (p_header p)) []) as [w0 m0] eqn:E0.
  apply rbind_ok in E. destruct E as ([w1 m1] & E1 & E). cbn [fst snd] in E. apply rbind_ok in E. destruct E as ([w2 m2] & E2 & E). cbn [fst snd] in E.
  apply rbind_ok in E. destruct E as ([w3 m3] & E3 & E). cbn [fst snd] in E. injection E as <-.
  set (H := header_to_bytes (p_header p)) in *. set (H' := header_to_bytes (p_header (with_id i p))). assert (LH : length H' = length H) by reflexivity.
  destruct (questions_length c h _ _ H' _ _ _ LH E0) as (x0 & -> & Q0). change (p_questions (with_id i p)) with (p_questions p). rewrite Q0.
  destruct (records_length c h _ (H ++ x0) (H' ++ x0) _ _ _ ltac:(rewrite !app_length, LH; reflexivity) E1) as (x1 & -> & Q1). change (p_answers (with_id i p)) with (p_answers p). rewrite Q1. cbn [rbind fst snd].
  destruct (records_length c h _ ((H ++ x0) ++ x1) ((H' ++ x0) ++ x1) _ _ _ ltac:(rewrite !app_length, LH; reflexivity) E2) as (x2 & -> & Q2). change (p_authorities (with_id i p)) with (p_authorities p). rewrite Q2. cbn [rbind fst snd].
  destruct (records_length c h _ (((H ++ x0) ++ x1) ++ x2) (((H' ++ x0) ++ x1) ++ x2) _ _ _ ltac:(rewrite !app_length, LH; reflexivity) E3) as (x3 & -> & Q3). change (p_additionals (with_id i p)) with (p_additionals p). rewrite Q3. cbn [rbind fst snd].
  split; [reflexivity|]. f_equal.
Qed.

(** ** The first octets of the header. *)
Lemma top_patched c k (d x : bytes) : byte_list d -> (k <= 4)%nat -> length x = k -> (4 <= length d)%nat ->
  (forall q, (q < k)%nat -> ~ pointed_at d q) ->
  exists h h' t, d = h ++ t /\ patch d 0 x = h' ++ t /\ length h = 4%nat /\ h' = x ++ skipn k h /\ fst (body c (mkbuf (h' ++ t) 4)) = fst (body c (mkbuf (h ++ t) 4)).
Proof.
  intros B K L F S. set (h := firstn 4 d). set (t := skipn 4 d). assert (E : d = h ++ t) by (symmetry; apply firstn_skipn). assert (Lh : length h = 4%nat) by (unfold h; rewrite firstn_length; lia).
  exists h, (x ++ skipn k h), t. assert (X : patch d 0 x = (x ++ skipn k h) ++ t).
  { unfold patch. cbn [firstn app Nat.add]. rewrite L, <- app_assoc. f_equal. rewrite E, skipn_app. f_equal. replace (k - length h)%nat with 0%nat by lia. reflexivity. }
  split; [exact E|]. split; [exact X|]. split; [exact Lh|]. split; [reflexivity|].
  pose proof (sw_body (fun q => (q < k)%nat) c) as (_ & W). specialize (W (mkbuf (h ++ t) 4) (mkbuf ((x ++ skipn k h) ++ t) 4)). rewrite W; [reflexivity| |].
  - rewrite <- E. repeat split; cbn [data pos]; [exact B|intros q P Q; exact (S q Q P)|rewrite E, !app_length, skipn_length; lia| |lia].
    intros q NQ. rewrite E. rewrite <- app_assoc. rewrite nth_error_app2 by lia. rewrite L. rewrite <- (firstn_skipn k h) at 2. rewrite <- app_assoc. rewrite (nth_error_app2 (firstn k h)) by (rewrite firstn_length; lia).
    rewrite firstn_length. f_equal. lia.
  - left. cbn [pos]. intros q Q. lia.
Qed.

Lemma id_patched c (d : bytes) (i : N) : byte_list d -> (4 <= length d)%nat -> i < 65536 ->
  (forall q, (q < 2)%nat -> ~ pointed_at d q) ->
  packet_try_from c (patch d 0 (be 2 i)) =
  match packet_try_from c d with Ok p => Ok (with_id i p) | Err e => Err e | Panic => Panic | Diverge => Diverge end.
Proof.
  intros B F I S. destruct (top_patched c 2 d (be 2 i) B ltac:(lia) (be_length 2 i) F S) as (h & h' & t & -> & -> & L & -> & Y).
  rewrite !parse_parts by (rewrite ?app_length, ?skipn_length, ?be_length; lia). rewrite Y. destruct (fst (body c (mkbuf (h ++ t) 4))) as [[n [[[qs an] au] ad]]|e| |]; try reflexivity.
  f_equal. unfold packet_of, with_id, header_of. cbn [p_header p_questions p_answers p_authorities p_additionals]. destruct n as [[[n1 n2] n3] n4]. cbn [hflags ques_count ans_count auth_count add_count].
  f_equal. f_equal.
  - change (firstn 2 (be 2 i ++ skipn 2 h)) with (be 2 i). apply unbe_be2. exact I.
Qed.
Lemma parsed_header c d p : byte_list d -> packet_try_from c d = Ok p -> view (p_header p) = fields_of d.
Proof.
  intros B E. unfold packet_try_from, packet_try_from_buf in E. unfold bind at 1 in E. destruct (le_lt_dec 12 (length d)) as [L|L].
  - destruct (header_bytes12 d (byte_list_cut 12 d B) L) as (h & _ & Eh & Vh). rewrite fields_firstn in Vh by exact L. rewrite Eh in E.
    unfold bind, ret in E. repeat match type of E with context [let (_, _) := ?x in _] => lazymatch x with context [let (_, _) := _ in _] => fail | _ => destruct x as [[?|?| |] ?]; cbn [fst] in E; try discriminate E end end.
    injection E as <-. exact Vh.
  - exfalso. clear B. do 12 (destruct d as [|? d]; [discriminate E|]). cbn [length] in L. lia.
Qed.
Lemma header_patched c (d x : bytes) : byte_list d -> byte_list x -> length x = 4%nat -> (4 <= length d)%nat ->
  (forall q, (q < 4)%nat -> ~ pointed_at d q) ->
  match packet_try_from c d with
  | Ok p => exists p', packet_try_from c (patch d 0 x) = Ok p' /\ view (p_header p') = fields_of (patch d 0 x) /\
      p_questions p' = p_questions p /\ p_answers p' = p_answers p /\ p_authorities p' = p_authorities p /\ p_additionals p' = p_additionals p
  | bad => packet_try_from c (patch d 0 x) = bad
  end.
Proof.
  intros B Bx Lx F S. destruct (top_patched c 4 d x B ltac:(lia) Lx F S) as (h & h' & t & E & X & L & Eh & Y). rewrite skipn_all2, app_nil_r in Eh by lia. subst h'.
  assert (Bp : byte_list (patch d 0 x)). { rewrite X. rewrite E in B. apply Forall_app in B. apply Forall_app. split; [exact Bx|apply B]. }
  pose proof (parse_parts c x t Lx) as P'. rewrite Y in P'. pose proof (parse_parts c h t L) as P. rewrite <- E in P. rewrite P, X. rewrite X in Bp. rewrite <- E in P'.
  destruct (fst (body c (mkbuf d 4))) as [y|e| |]; try exact P'. exists (packet_of x y). split; [exact P'|]. split; [apply (parsed_header c _ _ Bp P')|].
  destruct y as [n [[[qs an] au] ad]]. repeat split; reflexivity.
Qed.
Lemma ttl_patched c (d : bytes) p s i r : byte_list d -> packet_try_from c d = Ok p -> nth_error (records s p) i = Some r ->
  exists a, slice d a 4 = be 4 (rr_ttl r) /\ ((forall q, (a <= q < a + 4)%nat -> ~ pointed_at d q) ->
    forall t, t < 4294967296 -> packet_try_from c (patch d a (be 4 t)) = Ok (with_ttl s i t p)).
Proof.
  intros B E N. destruct (packet_retimed c d p s i r E N) as (a & A & T & H). exists a. split.
  - rewrite T. pose proof (be_unbe (slice d a 4)) as U. rewrite slice_length in U by exact A. symmetry. apply U. unfold slice. apply byte_list_cut. unfold byte_list in *. rewrite <- (firstn_skipn a d) in B. apply Forall_app in B. apply B.
  - intros C t Lt. assert (La : length (firstn a d) = a) by (rewrite firstn_length; lia). rewrite H.
    + f_equal. f_equal. unfold patch. pose proof (slice_exact (firstn a d) (be 4 t) (skipn (a + length (be 4 t)) d)) as X. rewrite La, be_length in X. rewrite be_length, X. apply unbe_be4, Lt.
    + split; [exact B|]. intros q Q Q'. exact (C q Q' Q).
    + unfold patch. rewrite be_length. split; [rewrite !app_length, be_length, skipn_length; lia|]. intros q NQ. unfold four in NQ. destruct (lt_dec q a) as [La'|Ga].
      * rewrite nth_error_app1 by lia. apply nth_firstn_lt. exact La'.
      * rewrite nth_error_app2, La by lia. rewrite nth_error_app2 by (rewrite be_length; lia). rewrite be_length, nth_skip. f_equal. lia.
Qed.
