(** * Exactly which messages are rejected, and with which error: proofs *)
From Coq Require Import Lia ZifyBool ZifyNat ZifyN.
From Verif Require Import Base Utf8 Buffer Fqdn Header Types RDataBasic Bitmap Svcb RDataSec RData Packet BaseFacts Utf8Facts BufferFacts NameSpec FqdnLoop FqdnFacts WalkFacts BitmapFacts RDataReads
  CodeSpec CodeFacts RDataFacts ParseFacts HeaderSpec HeaderFacts WireSpec WireFacts SvcbParse FailSpec FailFacts FieldSpec FieldFacts ReadSpec ReadFacts MdnsFacts StopSpec StopFacts ErrSpec.
Ltac Zify.zify_post_hook ::= Z.div_mod_to_equations.

(** [p] returns an error on the octets [d] exactly as [E] says. *)
Definition errs {A} (d : bytes) (p : P A) (E : dns_error -> nat -> Prop) : Prop := forall e q, (q <= length d)%nat ->
  fst (p (mkbuf d q)) = Err e <-> E e q.
Lemma err_bind {A B} e (p : P A) (g : A -> P B) b : fst (bind p g b) = Err e <->
  fst (p b) = Err e \/ exists a b', p b = (Ok a, b') /\ fst (g a b') = Err e.
Proof.
  unfold bind. destruct (p b) as [[a|x| |] b1]; cbn [fst]; split.
  - intros H. right. exists a, b1. auto.
  - intros [H|(a' & b' & E & H)]; [discriminate|]. injection E as <- <-. exact H.
  - intros H. left. injection H as ->. reflexivity.
  - intros [H|(a' & b' & E & H)]; [injection H as ->; reflexivity|discriminate].
  - discriminate.
  - intros [H|(a' & b' & E & H)]; discriminate.
  - discriminate.
  - intros [H|(a' & b' & E & H)]; discriminate.
Qed.
Lemma errs_ext {A} d (p : P A) F G : (forall e q, F e q <-> G e q) -> errs d p F -> errs d p G.
Proof. intros H S e q L. rewrite (S e q L). apply H. Qed.
Lemma errs_done {A} d (x : A) : errs d (ret x) (first_fault Done).
Proof. intros e q L. split; [discriminate|intros []]. Qed.
Lemma errs_pmap {A B} d (g : A -> B) (p : P A) F : errs d p F -> errs d (pmap g p) F.
Proof. intros S e q L. unfold pmap. rewrite err_bind, (S e q L). split; [intros [H|(a & b & _ & H)]; [exact H|discriminate]|auto]. Qed.
Lemma errs_tail {A B} d (p : P A) (k : A -> B) F : errs d p F -> errs d (bind p (fun a => ret (k a))) F.
Proof. intros S e q L. rewrite err_bind, (S e q L). split; [intros [H|(a & b & _ & H)]; [exact H|discriminate]|auto]. Qed.
Lemma errs_part_in {A B} d (p : P A) (k : A -> P B) R F more : dec d p R -> errs d p F -> (forall a q m, R a q m -> (m <= length d)%nat) ->
  (forall a q m, R a q m -> errs d (k a) (first_fault (more a))) -> errs d (bind p k) (first_fault (And (mkPart A R F) more)).
Proof.
  intros D S1 I S2 e q L. rewrite err_bind, (S1 e q L). cbn [first_fault reads fault value]. split; (intros [H|(a & H)]; [left; exact H|right]).
  - destruct H as (b & E & H). apply D in E; [|exact L]. destruct E as (m & HR & Lm & ->). exists a, m. split; [exact HR|]. eapply S2; eassumption.
  - destruct H as (m & HR & H). pose proof (I _ _ _ HR) as Lm. exists a, (mkbuf d m). split; [apply D; [exact L|eauto]|]. eapply S2; eassumption.
Qed.
Lemma errs_part {A B} d (p : P A) (k : A -> P B) R F more : dec d p R -> errs d p F -> (forall a q m, R a q m -> (m <= length d)%nat) ->
  (forall a, errs d (k a) (first_fault (more a))) -> errs d (bind p k) (first_fault (And (mkPart A R F) more)).
Proof. intros D S1 I S2. apply errs_part_in; auto. Qed.
(** Only the last part. *)
Lemma errs_last {A X} d (p : P A) (R : X -> piece) F : errs d p F -> errs d p (first_fault (mkPart X R F ,, Done)).
Proof. apply errs_ext. intros e q. cbn [first_fault fault value reads]. split; [auto|]. intros [H|(v & m & _ & [])]. exact H. Qed.

(** ** Single parts *)
Lemma errs_bytes d n : errs d (extract_bytes n) (cut d n).
Proof.
  intros e q L. unfold extract_bytes, cut. cbn [data pos]. destruct (Nat.ltb_spec (length d) (q + n)); cbn [fst]; split; try discriminate; try lia.
  - intros E. injection E as <-. auto.
  - intros (_ & ->). reflexivity.
Qed.
Lemma errs_rest d : errs d extract_rest (fun _ _ => False).
Proof. intros e q L. unfold extract_rest. rewrite (errs_bytes d _ e q L). unfold cut, remaining. cbn [data pos]. lia. Qed.
Lemma errs_u8 d : errs d extract_u8 (cut d 1).
Proof. apply errs_tail, errs_bytes. Qed.
Lemma errs_u16 d : errs d extract_u16 (cut d 2).
Proof. apply errs_tail, errs_bytes. Qed.
Lemma errs_u32 d : errs d extract_u32 (cut d 4).
Proof. apply errs_tail, errs_bytes. Qed.
Lemma errs_lift {A} d k (p : P N) (dom : A -> Prop) bound code try error : dec d p (num d k) -> errs d p (cut d k) -> faithful dom bound code try error ->
  errs d (x <- p ;; lift (try x)) (fault (enum d k dom code error)).
Proof.
  intros D S (F1 & F2 & F3 & F4) e q L. rewrite err_bind, (S e q L). cbn [fault enum]. split; (intros [H|H]; [left; exact H|right]).
  - destruct H as (v & b & E & H). apply D in E; [|exact L]. destruct E as (m & HN & Lm & ->). unfold lift in H. cbn [fst] in H. exists v, m. split; [exact HN|].
    assert (NX : forall x, dom x -> code x <> v). { intros x Dx <-. rewrite (proj2 (F1 x Dx)) in H. discriminate. }
    split; [exact NX|]. rewrite (F3 v NX) in H. injection H as <-. reflexivity.
  - destruct H as (v & m & HN & NX & ->). exists v, (mkbuf d m). pose proof (num_in _ _ _ _ _ HN) as Lm. split; [apply D; [exact L|eauto]|]. unfold lift. cbn [fst]. apply F3, NX.
Qed.
Lemma errs_string d : byte_list d -> errs d extract_character_string (short_string d).
Proof.
  intros B e q L. unfold extract_character_string. rewrite err_bind, (errs_u8 d e q L). unfold short_string. split; (intros [H|H]; [left; exact H|right]).
  - destruct H as (n & b & E & H). apply u8_iff in E; [|exact B]. destruct E as (E & ->).
    assert (q < length d)%nat by (apply nth_error_Some; congruence). apply errs_bytes in H; [|lia]. exists n. split; [exact E|]. unfold cut in *. lia || (destruct H as (H & ->); split; [lia|reflexivity]).
  - destruct H as (n & E & H). assert (q < length d)%nat by (apply nth_error_Some; congruence). exists n, (mkbuf d (q + 1)). split; [apply u8_iff; auto|].
    apply errs_bytes; [lia|]. destruct H as (H & ->). split; [lia|reflexivity].
Qed.
Lemma errs_text d : byte_list d -> errs d extract_string (fault (text d)).
Proof.
  intros B e q L. unfold extract_string. rewrite err_bind, (errs_string d B e q L). cbn [fault text]. split; (intros [H|H]; [left; exact H|right]).
  - destruct H as (s & b & E & H). apply dec_str in E; [|exact B|exact L]. destruct E as (m & S & Lm & ->). exists s, m. split; [exact S|].
    destruct (utf8_valid s) eqn:V; [discriminate|]. cbn [fst fail] in H. injection H as <-. split; [|reflexivity]. intros T. apply utf8_valid_iff in T. congruence.
  - destruct H as (s & m & S & T & ->). exists s, (mkbuf d m). split; [apply dec_str; [exact B|exact L|]; exists m; split; [exact S|]; split; [inside|reflexivity]|].
    destruct (utf8_valid s) eqn:V; [|reflexivity]. exfalso. apply T, utf8_valid_iff, V.
Qed.

(** ** Names *)
Definition name_fault_at (d : bytes) (e : dns_error) (o : option nat) (q : nat) : Prop :=
  (exists t, pointer_at d q t /\ (match o with None => q | Some o => o end < t)%nat /\ e = UnresolveableCompressionPointer) \/
  (exists a, nth_error d q = Some a /\ 192 <= a /\ cut d 2 e q) \/
  (exists n, nth_error d q = Some n /\ 1 <= n <= 191 /\ cut d (N.to_nat n) e q).
Lemma step_err d o p e : byte_list d -> (exists q, step d (org_of o) p = Stop (Err e, q)) <-> name_fault_at d e o p.
Proof.
  intros HB. unfold step, name_fault_at, cut. destruct (nth_error d p) as [n|] eqn:E.
  2: { split; [intros (q & X); discriminate|]. intros [(t & (a & b & X & _) & _)|[(a & X & _)|(a & X & _)]]; congruence. }
  assert (Hn : n < 256) by (eapply byte_at; eauto). assert (Lp : (p < length d)%nat) by (apply nth_error_Some; congruence).
  rewrite mask_byte by assumption. destruct (N.leb_spec 192 n) as [H|H]; cbn zeta.
  - destruct (Nat.ltb_spec (length d) (p + 2)) as [L|L].
    + split.
      * intros (q & X). injection X as <- _. right. left. exists n. auto.
      * intros [(t & (a & b & X & Y & Z & _) & _)|[(a & X & Y & Z & ->)|(a & X & Y & Z)]].
        -- exfalso. assert (p + 1 < length d)%nat by (apply nth_error_Some; congruence). lia.
        -- eexists. reflexivity.
        -- injection X as <-. lia.
    + destruct (nth_error_ex d (p + 1)) as [b Eb]; [lia|]. assert (b < 256) by (eapply byte_at; eauto). rewrite (slice2 _ _ _ _ E Eb), ptr_target by assumption.
      assert (PT : forall t, pointer_at d p t <-> t = N.to_nat ((n - 192) * 256 + b)).
      { intros t. unfold pointer_at. split.
        - intros (a' & b' & X & Y & Z & _ & ->). congruence || (rewrite E in X; rewrite Eb in Z || rewrite Eb in Y; congruence).
        - intros ->. exists n, b. auto 7. }
      set (T := N.to_nat ((n - 192) * 256 + b)) in *.
      destruct (Nat.leb_spec (match org_of o with None => p + 1 | Some o => o end) T) as [LT|LT].
      * split.
        -- intros (q & X). injection X as <- _. left. exists T. split; [apply PT; reflexivity|]. split; [destruct o; cbn [org_of] in LT; lia|reflexivity].
        -- intros [(t & _ & _ & ->)|[(a & X & Y & Z & ->)|(a & X & Y & Z)]]; [eexists; reflexivity|lia|injection X as <-; lia].
      * split; [intros (q & X); discriminate|]. intros [(t & X & Y & ->)|[(a & X & Y & Z & ->)|(a & X & Y & Z)]]; [|lia|injection X as <-; lia].
        apply PT in X. subst t. exfalso. destruct o; cbn [org_of] in LT; lia.
  - assert (NP : forall t, ~ pointer_at d p t).
    { intros t (a & b & X & Y & Z). rewrite E in X. injection X as <-. lia. }
    destruct (Nat.ltb_spec (length d) (p + N.to_nat n)) as [L|L].
    + split.
      * intros (q & X). injection X as <- _. right. right. exists n. split; [reflexivity|]. split; [lia|auto].
      * intros [(t & X & _)|[(a & X & Y & Z)|(a & X & Y & Z & ->)]]; [destruct (NP _ X)|injection X as <-; lia|eexists; reflexivity].
    + split.
      * intros (q & X). destruct (n =? 0); [discriminate|]. destruct (_ <? _)%nat; discriminate.
      * intros [(t & X & _)|[(a & X & Y & Z)|(a & X & Y & Z & ->)]]; [destruct (NP _ X)|injection X as <-; lia|injection X as <-; lia].
Qed.
Lemma prepend_err acc r e : fst (prepend acc r) = Err e <-> fst r = Err e.
Proof. destruct r as [[] q]; cbn; split; congruence. Qed.
Lemma loop_err_walk d f e : byte_list d -> forall acc o p, fst (fqdn_loop d f acc (org_of o) p) = Err e ->
  exists o' q, hops d (o, p) (o', q) /\ name_fault_at d e o' q.
Proof.
  intros HB. induction f as [|f IH]; intros acc o p; [discriminate|]. rewrite loop_step.
  destruct (step d (org_of o) p) as [[r q]|push org' p'] eqn:E.
  - rewrite prepend_err. cbn [fst]. intros ->. exists o, p. split; [constructor|]. apply step_err; [exact HB|]. eauto.
  - intros H. apply step_hop in E as [o' [-> Hh]]; [|assumption]. apply IH in H as [o'' [q [H1 H2]]]. exists o'', q. split; [|assumption]. econstructor; eassumption.
Qed.
Lemma walk_loop_err d e s s' : byte_list d -> hops d s s' -> name_fault_at d e (fst s') (snd s') ->
  exists f, forall acc, fst (fqdn_loop d f acc (org_of (fst s)) (snd s)) = Err e.
Proof.
  intros HB. induction 1 as [s|s s1 s2 Hh Hs IH]; intros HP.
  - exists 1%nat. intros acc. rewrite loop_step. apply step_err in HP; [|exact HB]. destruct HP as (q & ->). apply prepend_err. reflexivity.
  - destruct (IH HP) as [f Hf]. exists (S f). intros acc. rewrite loop_step. destruct (hop_step _ _ _ Hh) as [push ->]. apply Hf.
Qed.
Lemma errs_name d : byte_list d -> errs d extract_fqdn (name_fault d).
Proof.
  intros HB e p _. unfold extract_fqdn; cbn [data pos]. destruct (fqdn_loop d (fqdn_fuel d) [] None p) as [r q] eqn:E. cbn [fst]. split.
  - intros ->. apply (loop_err_walk d (fqdn_fuel d) e HB [] None p). cbn [org_of]. rewrite E. reflexivity.
  - intros [o [q' [H1 H2]]]. destruct (walk_loop_err d e _ _ HB H1 H2) as [f Hf]. specialize (Hf []). cbn [fst snd org_of] in Hf.
    assert (X : fqdn_loop d (fqdn_fuel d) [] None p = fqdn_loop d f [] None p).
    { apply fuel_enough. rewrite Hf. reflexivity. }
    rewrite E in X. rewrite <- X in Hf. exact Hf.
Qed.

(** ** Loops *)
Section Loop.
  Context {A X : Type} (d : bytes) (step : A -> P A) (entry : nat -> X -> nat -> Prop) (bad : dns_error -> nat -> Prop).
  Hypothesis got : forall a q v b, (q <= length d)%nat -> step a (mkbuf d q) = (Ok v, b) -> exists x e, entry q x e /\ (q < e <= length d)%nat /\ b = mkbuf d e.
  Hypothesis read : forall a q x e, entry q x e -> (q < e <= length d)%nat -> exists v, step a (mkbuf d q) = (Ok v, mkbuf d e).
  Hypothesis err : forall a, errs d (step a) bad.
  Lemma while_errs f : forall fuel a q, (q <= length d)%nat -> (length d - q <= fuel)%nat ->
    fst (while_remaining fuel step a (mkbuf d q)) = Err f <-> exists xs p, consecutive entry q xs p /\ (p < length d)%nat /\ bad f p.
  Proof.
    induction fuel as [|n IH]; intros a q L F; cbn [while_remaining]; unfold remaining; cbn [data pos];
      (destruct (Nat.eqb_spec (length d - q) 0) as [Z|NZ]; [assert (q = length d) by lia; subst q|]); try lia.
    1, 2: split; [intros H; discriminate|]; intros (xs & p & C & Lp & _); apply consecutive_start in C; lia.
    rewrite err_bind. split.
    - intros [H|(v & b & E & H)].
      + exists [], q. split; [constructor|]. split; [lia|]. apply (err a f q L), H.
      + destruct (got _ _ _ _ L E) as (x & e & En & Le & ->). apply IH in H; [|lia|lia]. destruct H as (xs & p & C & Lp & H).
        exists (x :: xs), p. split; [econstructor; [exact En|lia|exact C]|auto].
    - intros (xs & p & C & Lp & H). inversion C as [|? x m ys ? En Lm C']; subst.
      + left. apply (err a f p L), H.
      + right. pose proof (consecutive_start _ _ _ _ C'). destruct (read a q x m En ltac:(lia)) as (v & E). exists v, (mkbuf d m). split; [exact E|].
        apply IH; [lia|lia|]. exists ys, p. auto.
  Qed.
  Lemma loop_errs a : errs d (loop_remaining step a) (all_fault d entry bad).
  Proof. intros f q L. unfold loop_remaining, remaining. cbn [data pos]. apply while_errs; [exact L|lia]. Qed.
End Loop.

(** ** Type bitmaps *)
Lemma insert16_err c w acc p e : insert16 c w acc p = Err e <->
  (256 * w + p < 65536 \/ ovf c = false) /\ (forall t, ~ bit_means c (256 * w + p) t) /\ e = InvalidType ((256 * w + p) mod 65536).
Proof.
  destruct (rtype_faithful c) as (F1 & F2 & F3 & F4). set (n := 256 * w + p).
  assert (X : (n < 65536 \/ ovf c = false) -> (let! t := rtype_try_from c (n mod 65536) in Ok (set_insert rtype_code t acc)) = Err e <->
    (forall t, ~ bit_means c n t) /\ e = InvalidType (n mod 65536)).
  { intros O. destruct (faithful_total _ _ _ _ _ (n mod 65536) (rtype_faithful c)) as [[t E]|[x E]]; rewrite E; cbn [rbind].
    - split; [discriminate|]. intros (H & _). apply F2 in E. destruct E as (D & E). destruct (H t). split; [exact D|]. split; [exact E|exact O].
    - split.
      + intros H. injection H as ->. assert (NX : forall t, decodable c t -> rtype_code t <> n mod 65536).
        { intros t D Et. rewrite <- Et, (proj2 (F1 t D)) in E. discriminate. }
        split; [intros t (D & Et & _); apply (NX t D Et)|]. rewrite (F3 _ NX) in E. injection E as <-. reflexivity.
      + intros (H & ->). f_equal. assert (NX : forall t, decodable c t -> rtype_code t <> n mod 65536).
        { intros t D Et. apply (H t). split; [exact D|]. split; [exact Et|exact O]. }
        rewrite (F3 _ NX) in E. injection E as <-. reflexivity. }
  unfold insert16, insert_code. fold n. destruct (N.ltb_spec n 65536) as [H|H].
  - specialize (X (or_introl H)). rewrite (N.mod_small n) in * by exact H. rewrite X. tauto.
  - destruct (ovf c) eqn:O; [split; [discriminate|]; intros ([?|?] & _); [lia|discriminate]|]. rewrite (X (or_intror eq_refl)). tauto.
Qed.
Lemma rfold16_err c w e ps : forall acc, incr ps -> rfold (insert16 c w) ps acc = Err e <-> exists p, In p ps /\
  (256 * w + p < 65536 \/ ovf c = false) /\ (forall t, ~ bit_means c (256 * w + p) t) /\
  (forall k, In k ps -> k < p -> exists t, bit_means c (256 * w + k) t) /\ e = InvalidType ((256 * w + p) mod 65536).
Proof.
  induction ps as [|p ps IH]; intros acc I; cbn [rfold].
  - split; [discriminate|]. intros (p & [] & _).
  - assert (I' : incr ps /\ forall x, In x ps -> p < x).
    { destruct I as (I1 & I2). rewrite Forall_forall in I1. auto. }
    destruct I' as (I' & LT).
    destruct (insert16 c w acc p) as [a|x| |] eqn:E; cbn [rbind].
    + pose proof (proj1 (insert16_iff _ _ _ _ _) E) as (t & M & _). rewrite (IH a I'). split.
      * intros (k & J & O & U & H & ->). exists k. split; [right; exact J|]. split; [exact O|]. split; [exact U|]. split; [|reflexivity].
        intros y [<-|J'] Ly; [exists t; exact M|apply H; assumption].
      * intros (k & J & O & U & H & ->). destruct J as [<-|J]; [destruct (U t M)|]. exists k. split; [exact J|]. split; [exact O|]. split; [exact U|]. split; [|reflexivity].
        intros y J' Ly. apply H; [right; exact J'|exact Ly].
    + apply insert16_err in E. destruct E as (O & U & ->). split.
      * intros H. injection H as <-. exists p. split; [left; reflexivity|]. split; [exact O|]. split; [exact U|]. split; [|reflexivity].
        intros y [<-|J] Ly; [lia|]. specialize (LT y J). lia.
      * intros (k & J & O' & U' & H & ->). destruct J as [<-|J]; [reflexivity|]. exfalso. destruct (H p (or_introl eq_refl) (LT k J)) as (t & M). apply (U t M).
    + split; [discriminate|]. intros (k & J & O & U & H & ->). exfalso. assert (F : fails Panics (insert16 c w acc p)) by exact E. apply insert16_fails in F. destruct F as (_ & O' & Lp).
      destruct O as [O|O]; [|congruence]. destruct J as [<-|J]; [lia|]. specialize (LT k J). lia.
    + assert (F : fails Loops (insert16 c w acc p)) by exact E. apply insert16_fails in F. destruct F as (F & _). discriminate.
Qed.
Lemma bitmap_err c w bm acc e : w < 256 -> (length bm < 256)%nat -> bitmap_types c w 0 bm acc = Err e <-> unknown_type c (w, bm) e.
Proof.
  intros W Lb. rewrite bitmap_types16; [|exact W|lia]. rewrite rfold16_err by apply positions_incr. unfold unknown_type. split.
  - intros (p & I & O & U & H & ->). exists (256 * w + p). split; [apply marked_one; exists p; auto|]. split; [exact O|]. split; [exact U|]. split; [|reflexivity].
    intros k M Lk. apply marked_one in M. destruct M as (p' & I' & ->). cbn [fst] in *. apply H; [exact I'|lia].
  - intros (n & M & O & U & H & ->). apply marked_one in M. destruct M as (p & I & ->). cbn [fst snd] in *. exists p. split; [exact I|]. split; [exact O|]. split; [exact U|]. split; [|reflexivity].
    intros k J Lk. apply H; [apply marked_one; exists k; auto|lia].
Qed.
Lemma window_step_errs c d acc : byte_list d -> errs d (window_step c acc) (window_fault c d).
Proof.
  intros B e q L. unfold window_step, window_fault. cbn [first_fault integer run reads fault value].
  rewrite err_bind, (errs_u8 d e q L). split.
  - intros [H|(w & b & E1 & H)]; [left; left; exact H|]. apply dec_u8 in E1; [|exact B|exact L]. destruct E1 as (m1 & N1 & L1 & ->).
    apply err_bind in H. destruct H as [H|(n & b & E2 & H)]; [left; right; exists w, m1; split; [exact N1|left; apply (errs_u8 d e m1 L1), H]|].
    apply dec_u8 in E2; [|exact B|exact L1]. destruct E2 as (m2 & N2 & L2 & ->).
    apply err_bind in H. destruct H as [H|(bm & b & E3 & H)]; [left; right; exists w, m1; split; [exact N1|right]; exists n, m2; split; [exact N2|left]; apply (errs_bytes d _ e m2 L2), H|].
    right. apply bytes_iff in E3. destruct E3 as (L3 & -> & ->). unfold lift in H. cbn [fst] in H.
    destruct N1 as (N1 & ->). destruct N2 as (N2 & ->). apply number1 in N1, N2; try exact B. replace (q + 1 + 1)%nat with (q + 2)%nat in * by lia.
    pose proof (Forall_nth_error _ _ _ _ B N1) as W. pose proof (Forall_nth_error _ _ _ _ B N2) as LN. cbn beta in W, LN.
    apply bitmap_err in H; [|exact W|rewrite slice_length by exact L3; lia].
    exists (w, slice d (q + 2) (N.to_nat n)), (q + 2 + N.to_nat n)%nat. split; [|exact H].
    unfold window_at. cbn [fst snd]. rewrite slice_length by exact L3. rewrite N2Nat.id. auto.
  - intros [[H|(w & m1 & N1 & [H|(n & m2 & N2 & [H|(s & m3 & _ & [])])])]|([w bm] & m & WA & H)].
    + left. exact H.
    + right. pose proof (num_in _ _ _ _ _ N1) as L1. exists w, (mkbuf d m1). split; [apply dec_u8; [exact B|exact L|eauto]|]. apply err_bind. left. apply errs_u8; assumption.
    + right. pose proof (num_in _ _ _ _ _ N1) as L1. pose proof (num_in _ _ _ _ _ N2) as L2. exists w, (mkbuf d m1). split; [apply dec_u8; [exact B|exact L|eauto]|].
      apply err_bind. right. exists n, (mkbuf d m2). split; [apply dec_u8; [exact B|exact L1|eauto]|]. apply err_bind. left. apply errs_bytes; assumption.
    + right. pose proof WA as (E1 & E2 & L3 & S & ->). cbn [fst snd] in *.
      pose proof (Forall_nth_error _ _ _ _ B E1) as W. pose proof (Forall_nth_error _ _ _ _ B E2) as LN. cbn beta in W, LN.
      exists w, (mkbuf d (q + 1)). split; [apply u8_iff; auto|]. apply err_bind. right. exists (N.of_nat (length bm)), (mkbuf d (q + 2)).
      split; [apply u8_iff; [exact B|]; split; [exact E2|f_equal; lia]|]. apply err_bind. right. exists bm, (mkbuf d (q + 2 + length bm)). rewrite Nat2N.id. split; [apply bytes_iff; auto|].
      unfold lift. cbn [fst]. apply bitmap_err; [exact W|lia|exact H].
Qed.
Lemma known_types c (x : N * bytes) : (forall n, marked [x] n -> exists t, bit_means c n t) <->
  exists l, Forall2 (fun p t => bit_means c (256 * fst x + p) t) (positions 0 (snd x)) l.
Proof.
  split.
  - intros H. assert (K : forall p, In p (positions 0 (snd x)) -> exists t, bit_means c (256 * fst x + p) t).
    { intros k Ik. apply H. apply marked_one. exists k. auto. }
    induction (positions 0 (snd x)) as [|k ks IH]; [exists []; constructor|]. destruct (K k (or_introl eq_refl)) as (t & M).
    destruct IH as (l & Fl); [intros; apply K; right; assumption|]. exists (t :: l). constructor; assumption.
  - intros (l & F) n M. apply marked_one in M. destruct M as (p & I & ->). apply forall2_in in F. destruct F as (F & _). destruct (F _ I) as (t & _ & M). eauto.
Qed.
Lemma types_errs c d : byte_list d -> errs d (types_try_from c) (fault (types c d)).
Proof.
  intros B. unfold types_try_from. cbn [fault types all]. apply loop_errs.
  - intros a q v b _ E. apply window_step_iff in E; [|exact B]. destruct E as ((x & l) & e & (W & F) & Le & _ & ->). cbn [fst snd] in *. exists x, e. split; [|auto].
    split; [exact W|]. apply known_types. eauto.
  - intros a q x e (W & K) Le. apply known_types in K. destruct K as (l & F). eexists. apply window_step_iff; [exact B|]. exists (x, l), e. split; [split; assumption|]. split; [exact Le|]. split; reflexivity.
  - intros a. apply window_step_errs, B.
Qed.

(** ** SVCB parameters *)
Section Lists.
  Context (c : cfg) (element : part) (el : nat -> value element -> nat -> Prop).
  Hypothesis grows : forall q x e, el q x e -> (q < e)%nat.
  Hypothesis same : forall q x e x' e', el q x e -> el q x' e' -> e = e'.
  Local Notation bad := (fault element).
  Local Notation list_fault len := (fault (list_of c element el len)).
  Lemma list_zero e q : ~ list_fault 0 e q.
  Proof.
    clear same grows. cbn [fault list_of]. intros (xs & m & C & _ & [H|(_ & H & _)]); [apply consecutive_start in C; cbn [N.to_nat] in H; lia|destruct (overruns_zero _ _ H)].
  Qed.
  Lemma list_step len e q : 0 < len -> list_fault len e q <-> bad e q \/ exists x k, el q x k /\
    ((k <= q + N.to_nat len)%nat /\ list_fault (len - N.of_nat (k - q)) e k \/
     (q + N.to_nat len < k)%nat /\ ovf c = false /\ exists xs m, consecutive el k xs m /\ bad e m).
  Proof.
    intros Lz. cbn [fault list_of]. split.
    - intros (xs & m & C & Hb & H). inversion C as [|? x k ys ? Ex Lk C']; subst; [left; exact Hb|right].
      pose proof (consecutive_start _ _ _ _ C') as Lm. exists x, k. split; [exact Ex|]. destruct H as [H|(O & V & H)].
      + left. split; [lia|]. exists ys, m. split; [exact C'|]. split; [exact Hb|]. left. lia.
      + destruct (le_lt_dec k (q + N.to_nat len)) as [Lk'|Lk'].
        * left. split; [exact Lk'|]. exists ys, m. split; [exact C'|]. split; [exact Hb|]. right. split; [exact O|].
          apply overruns_step in V; [|exact Lz|apply grows]. destruct V as (x' & k' & Ex' & V). rewrite <- (same _ _ _ _ _ Ex Ex') in V. destruct V as [V|(_ & V)]; [lia|]. split; [exact V|lia].
        * right. split; [exact Lk'|]. split; [exact O|]. eauto.
    - intros [Hb|(x & k & Ex & H)].
      + exists [], q. split; [constructor|]. split; [exact Hb|]. left. lia.
      + pose proof (grows _ _ _ Ex) as Lk. destruct H as [(Lk' & xs & m & C & Hb & H)|(Lk' & O & xs & m & C & Hb)].
        * exists (x :: xs), m. split; [econstructor; [exact Ex|lia|exact C]|]. split; [exact Hb|]. destruct H as [H|(O & V & H)]; [left; lia|right].
          split; [exact O|]. split; [|lia]. apply overruns_step; [exact Lz|apply grows|]. exists x, k. auto.
        * pose proof (consecutive_start _ _ _ _ C) as Lm. exists (x :: xs), m. split; [econstructor; [exact Ex|lia|exact C]|]. split; [exact Hb|]. right. split; [exact O|].
          split; [|lia]. apply overruns_step; [exact Lz|apply grows|]. exists x, k. auto.
  Qed.
End Lists.
Lemma consecutive_in {X} (el : nat -> X -> nat -> Prop) (d : bytes) : (forall p x m, el p x m -> (m <= length d)%nat) -> forall q xs m, consecutive el q xs m -> (q <= length d)%nat -> (m <= length d)%nat.
Proof. intros I q xs m. induction 1 as [|p x k ys m En Lk C IH]; intros L; [exact L|]. apply IH, (I _ _ _ En). Qed.
Lemma key_same d q x e x' e' : key_at d q x e -> key_at d q x' e' -> e = e'.
Proof. intros (_ & _ & ->) (_ & _ & ->). reflexivity. Qed.
Lemma string_same d q x e x' e' : string_at d q x e -> string_at d q x' e' -> e = e'.
Proof. intros (H & _ & _ & ->) (H' & _ & _ & ->). unfold octet_at in *. assert (E : N.of_nat (length x) = N.of_nat (length x')) by congruence. lia. Qed.
Lemma errs_key d : byte_list d -> errs d (extract_u16_as pkey_try_from) (fault (svcb_key d)).
Proof. intros B. eapply (errs_lift d 2); [apply dec_u16, B|apply errs_u16|apply pkey_faithful]. Qed.
Lemma mandatory_errs c d : byte_list d -> allocatable d -> forall fuel len acc e q, (q <= length d)%nat -> len < M64 -> (length d - q < fuel)%nat ->
  fst (mandatory_loop c fuel len acc (mkbuf d q)) = Err e <-> fault (list_of c (svcb_key d) (key_at d) len) e q.
Proof.
  intros B A. induction fuel as [|n IH]; intros len acc e q L M F; [lia|]. cbn [mandatory_loop]. destruct (N.eqb_spec len 0) as [->|Z].
  { split; [discriminate|]. intros H. destruct (list_zero _ _ _ _ _ H). }
  rewrite (list_step c (svcb_key d) (key_at d)); [|intros ? ? ? (_ & _ & ->); lia|apply key_same|lia].
  assert (KI : forall k b, extract_u16_as pkey_try_from (mkbuf d q) = (Ok k, b) <-> key_at d q k (q + 2) /\ b = mkbuf d (q + 2)).
  { intros k b. rewrite u16_as_iff by exact B. unfold key_at. split.
    - intros (v & U & K & ->). apply pkey_iff in K. destruct K as (<- & D). auto.
    - intros ((U & D & _) & ->). exists (pkey_code k). split; [exact U|]. split; [apply pkey_iff; auto|reflexivity]. }
  rewrite err_bind, (errs_key d B e q L). split; (intros [H|H]; [left; exact H|right]).
  - destruct H as (k & b & E & H). apply KI in E. destruct E as (K & ->). pose proof (u16_at_end _ _ _ (proj1 K)) as LU. exists k, (q + 2)%nat. split; [exact K|].
    apply err_bind in H. destruct H as [H|(l & b' & E & H)].
    + unfold lift, usub in H. cbn [fst] in H. destruct (2 <=? len); [discriminate|]. destruct (ovf c); discriminate.
    + apply lift_ok in E. destruct E as (U & ->). unfold usub in U. destruct (N.leb_spec 2 len) as [L2|L2].
      * apply Ok_inj in U. subst l. left. split; [lia|]. apply IH in H; [|lia|lia|lia]. replace (len - N.of_nat (q + 2 - q)) with (len - 2) by lia. exact H.
      * right. split; [lia|]. destruct (ovf c) eqn:O; [discriminate|]. split; [reflexivity|]. apply Ok_inj in U. rewrite N.mod_small in U by (unfold M64 in *; lia).
        apply IH in H; [|lia|unfold M64 in *; lia|lia]. destruct H as (xs & m & C & Hb & _). eauto.
  - destruct H as (k & e' & K & H). assert (e' = (q + 2)%nat) as -> by apply K. pose proof (u16_at_end _ _ _ (proj1 K)) as LU.
    exists k, (mkbuf d (q + 2)). split; [apply KI; auto|]. apply err_bind. right. destruct H as [(Le & H)|(Le & O & xs & m & C & Hb)].
    + exists (len - 2), (mkbuf d (q + 2)). split; [unfold lift, usub; destruct (N.leb_spec 2 len); [reflexivity|lia]|].
      apply IH; [lia|lia|lia|]. replace (len - 2) with (len - N.of_nat (q + 2 - q)) by lia. exact H.
    + exists (len + M64 - 2), (mkbuf d (q + 2)). split.
      * unfold lift, usub. destruct (N.leb_spec 2 len); [lia|]. rewrite O, N.mod_small by (unfold M64 in *; lia). reflexivity.
      * apply IH; [lia|unfold M64 in *; lia|lia|]. cbn [fault list_of]. exists xs, m. split; [exact C|]. split; [exact Hb|]. left.
        assert (m <= length d)%nat by (eapply (consecutive_in (key_at d) d); [|exact C|lia]; intros ? ? ? (U & _ & ->); apply u16_at_end in U; lia).
        unfold allocatable, M64 in *. lia.
Qed.
Lemma alpn_errs c d : byte_list d -> allocatable d -> forall fuel len acc e q, (q <= length d)%nat -> len < M64 -> (length d - q < fuel)%nat ->
  fst (alpn_loop c fuel len acc (mkbuf d q)) = Err e <-> fault (list_of c (string d) (string_at d) len) e q.
Proof.
  intros B A. induction fuel as [|n IH]; intros len acc e q L M F; [lia|]. cbn [alpn_loop]. destruct (N.eqb_spec len 0) as [->|Z].
  { split; [discriminate|]. intros H. destruct (list_zero _ _ _ _ _ H). }
  rewrite (list_step c (string d) (string_at d)); [|intros ? ? ? H; apply string_at_end in H; lia|apply string_same|lia].
  assert (SI : forall (k : bytes -> N -> P (list bytes)), fst ((x <- extract_u8 ;; s <- extract_bytes (N.to_nat x) ;; k s x) (mkbuf d q)) = Err e <->
    short_string d e q \/ exists s m, string_at d q s m /\ fst (k s (N.of_nat (length s)) (mkbuf d m)) = Err e).
  { intros k. rewrite <- (errs_string d B e q L). unfold extract_character_string. rewrite !err_bind. split.
    - intros [H|(x & b & E & H)]; [left; left; exact H|]. apply err_bind in H. destruct H as [H|(s & b' & E' & H)]; [left; right; eauto|right].
      assert (S : extract_character_string (mkbuf d q) = (Ok s, b')) by (apply bind_iff; eauto). apply char_string_iff in S; [|exact B]. destruct S as (m & S & ->). exists s, m. split; [exact S|].
      apply u8_iff in E; [|exact B]. destruct E as (E & _). assert (x = N.of_nat (length s)) as -> by (destruct S as (Os & _); unfold octet_at in Os; congruence). exact H.
    - intros [[H|(x & b & E & H)]|(s & m & S & H)]; [left; exact H|right; exists x, b; split; [exact E|apply err_bind; left; exact H]|right].
      assert (HS : extract_character_string (mkbuf d q) = (Ok s, mkbuf d m)) by (apply char_string_iff; eauto). apply bind_iff in HS. destruct HS as (x & b1 & E1 & E2).
      exists x, b1. split; [exact E1|]. apply err_bind. right. exists s, (mkbuf d m). split; [exact E2|].
      apply u8_iff in E1; [|exact B]. destruct E1 as (E1 & _). assert (x = N.of_nat (length s)) as -> by (destruct S as (Os & _); unfold octet_at in Os; congruence). exact H. }
  rewrite (SI (fun s x => len' <- lift (usub c M64 len (x + 1)) ;; alpn_loop c n len' (acc ++ [s]))). clear SI. cbn [fault string].
  split; (intros [H|H]; [left; exact H|right]).
  - destruct H as (s & m & S & H). pose proof (string_at_end _ _ _ _ S) as LS. assert (Em : m = (q + 1 + length s)%nat) by apply S. exists s, m. split; [exact S|].
    apply err_bind in H. destruct H as [H|(l & b' & E & H)].
    + unfold lift, usub in H. cbn [fst] in H. destruct (_ <=? len); [discriminate|]. destruct (ovf c); discriminate.
    + apply lift_ok in E. destruct E as (U & ->). unfold usub in U. destruct (N.leb_spec (N.of_nat (length s) + 1) len) as [L2|L2].
      * apply Ok_inj in U. subst l. left. split; [lia|]. apply IH in H; [|lia|lia|lia]. replace (len - N.of_nat (m - q)) with (len - (N.of_nat (length s) + 1)) by lia. exact H.
      * right. split; [lia|]. destruct (ovf c) eqn:O; [discriminate|]. split; [reflexivity|]. unfold allocatable in A. apply Ok_inj in U. rewrite N.mod_small in U by (unfold M64 in *; lia).
        apply IH in H; [|lia|unfold M64 in *; lia|lia]. destruct H as (xs & m' & C & Hb & _). eauto.
  - destruct H as (s & m & S & H). pose proof (string_at_end _ _ _ _ S) as LS. assert (Em : m = (q + 1 + length s)%nat) by apply S. exists s, m. split; [exact S|].
    apply err_bind. right. destruct H as [(Le & H)|(Le & O & xs & m' & C & Hb)].
    + exists (len - (N.of_nat (length s) + 1)), (mkbuf d m). split; [unfold lift, usub; destruct (N.leb_spec (N.of_nat (length s) + 1) len); [reflexivity|lia]|].
      apply IH; [lia|lia|lia|]. replace (len - (N.of_nat (length s) + 1)) with (len - N.of_nat (m - q)) by lia. exact H.
    + exists (len + M64 - (N.of_nat (length s) + 1)), (mkbuf d m). unfold allocatable in A. split.
      * unfold lift, usub. destruct (N.leb_spec (N.of_nat (length s) + 1) len); [lia|]. rewrite O, N.mod_small by (unfold M64 in *; lia). reflexivity.
      * apply IH; [lia|unfold M64 in *; lia|lia|]. cbn [fault list_of]. exists xs, m'. split; [exact C|]. split; [exact Hb|]. left.
        assert (m' <= length d)%nat by (eapply (consecutive_in (string_at d) d); [|exact C|lia]; intros ? ? ? S'; apply string_at_end in S'; lia).
        unfold M64 in *. lia.
Qed.

(** ** Parts in a row *)
Section Rows.
  Context (d : bytes) (B : byte_list d).
  Lemma part_u8 {X} (k : N -> P X) more : (forall a, errs d (k a) (first_fault (more a))) -> errs d (bind extract_u8 k) (first_fault (And (integer d 1) more)).
  Proof. apply errs_part; [apply dec_u8, B|apply errs_u8|intros; inside]. Qed.
  Lemma part_u16 {X} (k : N -> P X) more : (forall a, errs d (k a) (first_fault (more a))) -> errs d (bind extract_u16 k) (first_fault (And (integer d 2) more)).
  Proof. apply errs_part; [apply dec_u16, B|apply errs_u16|intros; inside]. Qed.
  Lemma part_u32 {X} (k : N -> P X) more : (forall a, errs d (k a) (first_fault (more a))) -> errs d (bind extract_u32 k) (first_fault (And (integer d 4) more)).
  Proof. apply errs_part; [apply dec_u32|apply errs_u32|intros; inside]. Qed.
  Lemma part_run {X} n (k : bytes -> P X) more : (forall a, errs d (k a) (first_fault (more a))) -> errs d (bind (extract_bytes n) k) (first_fault (And (run d n) more)).
  Proof. apply errs_part; [apply dec_bytes|apply errs_bytes|cbv beta; intros a q m (H & _); inside]. Qed.
  Lemma part_number {X} n (k : bytes -> P X) l : (forall a, errs d (k a) (first_fault l)) -> errs d (bind (extract_bytes n) k) (first_fault (integer d n ,, l)).
  Proof.
    intros S. eapply errs_ext; [|apply (part_run n k (fun _ => l)), S]. intros e q. cbn [first_fault integer run fault reads value].
    split; (intros [H|(v & m & H & K)]; [left; exact H|right]).
    - destruct H as (H & <-). apply octets_is in H. destruct H as (H & _ & ->). eexists. exists (q + length v)%nat. split; [|exact K]. split; [split; [exact H|reflexivity]|reflexivity].
    - destruct H as ((H & _) & ->). exists (slice d q n), (q + n)%nat. split; [|exact K]. split; [|apply slice_length, H]. apply octets_slice, H.
  Qed.
  Lemma part_name {X} (k : fqdn -> P X) more : (forall a, errs d (k a) (first_fault (more a))) -> errs d (bind extract_fqdn k) (first_fault (And (domain_name d) more)).
  Proof. apply errs_part; [apply dec_name, B|apply errs_name, B|intros; inside]. Qed.
  Lemma part_string {X} (k : bytes -> P X) more : (forall a, errs d (k a) (first_fault (more a))) -> errs d (bind extract_character_string k) (first_fault (And (string d) more)).
  Proof. apply errs_part; [apply dec_str, B|apply errs_string, B|intros; inside]. Qed.
  Lemma part_text {X} (k : bytes -> P X) more : (forall a, errs d (k a) (first_fault (more a))) -> errs d (bind extract_string k) (first_fault (And (text d) more)).
  Proof. apply errs_part; [apply dec_text, B|apply errs_text, B|intros; inside]. Qed.
  Lemma part_e8 {X Y} (k : X -> P Y) dom bound code try err more : faithful dom bound code try err -> (forall a, errs d (k a) (first_fault (more a))) ->
    errs d (bind (extract_u8_as try) k) (first_fault (And (enum d 1 dom code err) more)).
  Proof.
    intros F. apply errs_part; [eapply dec_lift; [apply dec_u8, B|exact F]|eapply errs_lift; [apply dec_u8, B|apply errs_u8|exact F]|cbv beta; intros a q m (_ & H); inside].
  Qed.
  Lemma part_e16 {X Y} (k : X -> P Y) dom bound code try err more : faithful dom bound code try err -> (forall a, errs d (k a) (first_fault (more a))) ->
    errs d (bind (extract_u16_as try) k) (first_fault (And (enum d 2 dom code err) more)).
  Proof.
    intros F. apply errs_part; [eapply dec_lift; [apply dec_u16, B|exact F]|eapply errs_lift; [apply dec_u16, B|apply errs_u16|exact F]|cbv beta; intros a q m (_ & H); inside].
  Qed.
  Lemma part_block {X} (k : N -> bytes -> P X) l : (forall n s, errs d (k n s) (first_fault l)) ->
    errs d (n <- extract_u16 ;; s <- extract_bytes (N.to_nat n) ;; k n s) (first_fault (block d ,, l)).
  Proof.
    intros S. eapply errs_ext; [|apply (part_u16 _ (fun n => run d (N.to_nat n) ,, l)); intros n; apply (part_run _ _ (fun _ => l)), S].
    intros e q. cbn [first_fault integer run block fault reads value]. unfold sized. split.
    - intros [H|(n & m & H & [K|(s & m' & (K & E) & T)])]; [left; left; exact H|left; right; eauto|right]. exists s, m'. split; [|exact T]. exists m. rewrite E, N2Nat.id. auto.
    - intros [[H|(n & m & H & K)]|(s & m' & (m & H & K) & T)]; [left; exact H|right; exists n, m; auto|right]. exists (N.of_nat (length s)), m. split; [exact H|right].
      exists s, m'. rewrite Nat2N.id. auto.
  Qed.
  (** What is left is only the rest. *)
  Lemma part_rest {X} (k : bytes -> X) : errs d (x <- extract_rest ;; ret (k x)) (first_fault Done).
  Proof. eapply errs_ext; [|apply errs_tail, errs_rest]. reflexivity. Qed.
  Lemma part_refused {X} err l : errs d (@fail X err) (first_fault (refused err ,, l)).
  Proof. intros e q L. cbn [first_fault refused fault reads value]. unfold fail. cbn [fst]. split; [intros H; injection H as <-; auto|]. intros [->|(v & m & [] & _)]. reflexivity. Qed.
  Lemma errs_if {X} (a : bool) (p q : P X) l l' : errs d p (first_fault l) -> errs d q (first_fault l') -> errs d (if a then p else q) (first_fault (if a then l else l')).
  Proof. destruct a; auto. Qed.
End Rows.

Lemma param_try_errs c d : byte_list d -> allocatable d -> errs d (param_try_from c) (param_fault c d).
Proof.
  intros B A. unfold param_try_from, param_fault. eapply part_e16; [exact B|apply pkey_faithful|]. intros k. apply errs_part_in; [apply dec_u16, B|apply errs_u16|intros; inside|].
  intros len q0 m0 (U & _). apply u16_number in U; [|exact B]. apply u16_at_lt in U. destruct k; cbn [svcb_value]; try apply errs_done.
  - apply errs_last. intros e q L. unfold remaining. cbn [data pos]. rewrite <- (mandatory_errs c d B A (S (length d - q)) len [] e q L); [|unfold M64; lia|lia].
    rewrite err_bind. split; [intros [H|(a & b & _ & H)]; [exact H|discriminate]|auto].
  - apply errs_last. intros e q L. unfold remaining. cbn [data pos]. rewrite <- (alpn_errs c d B A (S (length d - q)) len [] e q L); [|unfold M64; lia|lia].
    rewrite err_bind. split; [intros [H|(a & b & _ & H)]; [exact H|discriminate]|auto].
  - apply part_u16; [exact B|]. intros a. apply errs_done.
  - apply part_u32. intros a. apply errs_done.
  - apply part_run. intros a. apply errs_done.
  - apply part_number. intros a. apply errs_done.
  - apply part_run. intros a. apply errs_done.
Qed.
Lemma param_step_errs c d acc : byte_list d -> allocatable d -> errs d (param_step c acc) (param_fault c d).
Proof.
  intros B A e q L. rewrite <- (param_try_errs c d B A e q L). unfold param_step, sub_buffer, remaining. cbn [data pos].
  destruct (Nat.ltb_spec (length d) (q + (length d - q))); [lia|].
  replace (q + (length d - q))%nat with (length d) by lia. rewrite firstn_all.
  destruct (param_try_from c (mkbuf d q)) as [[p|x| |] sb] eqn:E; cbn [fst]; try (split; intros H'; first [discriminate H'|injection H' as ->; reflexivity]; fail).
  split; [|discriminate]. intros H'. exfalso. apply err_bind in H'. destruct H' as [H'|(a & b' & _ & H')]; [|discriminate].
  apply param_iff in E; [|assumption..]. destruct E as (e' & _ & Le & ->). unfold set_position in H'. cbn [data pos] in H'. destruct (Nat.ltb_spec (length d) e'); [lia|discriminate].
Qed.
Lemma params_errs c d : byte_list d -> allocatable d -> errs d (loop_remaining (param_step c) []) (all_fault d (param_at d) (param_fault c d)).
Proof.
  intros B A. apply loop_errs.
  - intros a q v b L E. apply param_step_iff in E; [|assumption..]. destruct E as (x & e & W & Le & _ & ->). exists x, e. auto.
  - intros a q x e W Le. eexists. apply param_step_iff; [exact B|exact A|lia|]. exists x, e. split; [exact W|]. split; [exact Le|]. split; reflexivity.
  - intros a. apply param_step_errs; assumption.
Qed.
Lemma names_errs d : byte_list d -> errs d (loop_remaining names_step []) (all_fault d (name_at d 191) (name_fault d)).
Proof.
  intros B. apply loop_errs.
  - intros a q v b L E. unfold names_step in E. apply bind_iff in E. destruct E as (f & b1 & E1 & E2). cbn [ret] in E2. injection E2 as <- <-.
    apply dec_name in E1; [|assumption..]. destruct E1 as (e & N & Le & ->). exists f, e. pose proof (name_at_end _ _ _ _ N). split; [exact N|]. split; [lia|reflexivity].
  - intros a q x e N Le. eexists. unfold names_step. apply bind_iff. exists x, (mkbuf d e). split; [|reflexivity]. apply dec_name; [exact B|lia|]. exists e. split; [exact N|]. split; [lia|reflexivity].
  - intros a. unfold names_step. apply errs_tail, errs_name, B.
Qed.
Lemma txt_errs d : byte_list d -> errs d txt_try_from (all_fault d (string_at d) (short_string d)).
Proof.
  intros B. apply loop_errs; unfold txt_step.
  - intros a q v b L E. apply bind_iff in E. destruct E as (n & b1 & E1 & E). apply bind_iff in E. destruct E as (s & b2 & E2 & E). cbn [ret] in E. injection E as <- <-.
    assert (H : extract_character_string (mkbuf d q) = (Ok s, b2)) by (apply bind_iff; eauto). apply char_string_iff in H; [|exact B].
    destruct H as (e & S & ->). exists s, e. split; [exact S|]. split; [apply (string_at_end _ _ _ _ S)|auto].
  - intros a q s e S _. assert (H : extract_character_string (mkbuf d q) = (Ok s, mkbuf d e)) by (apply char_string_iff; eauto).
    apply bind_iff in H. destruct H as (n & b1 & E1 & E2). eexists. apply bind_iff. exists n, b1. split; [exact E1|]. apply bind_iff. exists s, (mkbuf d e). split; [exact E2|reflexivity].
  - intros a e q L. rewrite <- (errs_string d B e q L). unfold extract_character_string. rewrite !err_bind. split; (intros [H|(n & b & E & H)]; [left; exact H|right; exists n, b; split; [exact E|]]).
    + apply err_bind in H. destruct H as [H|(s & b' & _ & H)]; [exact H|discriminate].
    + apply err_bind. left. exact H.
Qed.
Lemma opt_errs d : byte_list d -> errs d opt_try_from (all_fault d (option_at d) (first_fault (integer d 2 ,, block d ,, Done))).
Proof.
  intros B. apply loop_errs; unfold opt_step.
  - intros a p v b' L E. apply bind_iff in E. destruct E as (k & b1 & E1 & E). apply u16_iff in E1; [|exact B]. destruct E1 as (U1 & ->).
    apply bind_iff in E. destruct E as (n & b1 & E1 & E). apply u16_iff in E1; [|exact B]. destruct E1 as (U2 & ->).
    apply bind_iff in E. destruct E as (s & b1 & E1 & E). apply bytes_iff in E1. destruct E1 as (L1 & -> & ->). cbn [ret] in E. injection E as <- <-.
    replace (p + 2 + 2)%nat with (p + 4)%nat in * by lia.
    exists (k, slice d (p + 4) (N.to_nat n)), (p + 4 + N.to_nat n)%nat. unfold option_at. cbn [fst snd]. rewrite slice_length by exact L1. rewrite N2Nat.id.
    split; [repeat split; try assumption|]. split; [lia|]. reflexivity.
  - intros a p [k s] e (U1 & U2 & L1 & S & ->) _. cbn [fst snd] in *. eexists. apply bind_iff. exists k, (mkbuf d (p + 2)). split; [apply u16_iff; auto|].
    apply bind_iff. exists (N.of_nat (length s)), (mkbuf d (p + 2 + 2)). split; [apply u16_iff; auto|].
    replace (p + 2 + 2)%nat with (p + 4)%nat by lia. apply bind_iff. exists s, (mkbuf d (p + 4 + length s)). split; [|reflexivity].
    apply bytes_iff. rewrite Nat2N.id. auto.
  - intros a. apply part_u16; [exact B|]. intros ?. apply part_block; [exact B|]. intros ? ?. apply errs_done.
Qed.
Lemma csync_flags_errs d : byte_list d -> errs d (extract_u16_as csync_flags_try_from) (fault (enum d 2 (fun v => v < 4) (fun v => v) InvalidCsyncFlag)).
Proof.
  intros B e q L. unfold extract_u16_as. rewrite err_bind, (errs_u16 d e q L). cbn [fault enum]. destruct csync_faithful as (F1 & F2 & F3). split; (intros [H|H]; [left; exact H|right]).
  - destruct H as (v & b & E & H). apply u16_iff in E; [|exact B]. destruct E as (U & ->). unfold lift in H. cbn [fst] in H. pose proof (u16_at_lt _ _ _ U) as Lv. exists v, (q + 2)%nat. split; [split; [apply u16_number; assumption|reflexivity]|].
    destruct (N.lt_ge_cases v 4) as [H4|H4]; [rewrite F1 in H by exact H4; discriminate|]. rewrite F3 in H by assumption. injection H as <-. split; [|reflexivity]. intros x Lx ->. lia.
  - destruct H as (v & m & (HN & ->) & NX & ->). apply u16_number in HN; [|exact B]. pose proof (u16_at_lt _ _ _ HN) as Lv. exists v, (mkbuf d (q + 2)). split; [apply u16_iff; auto|]. unfold lift. cbn [fst].
    apply F3; [exact Lv|]. destruct (N.lt_ge_cases v 4) as [H4|H4]; [|exact H4]. destruct (NX v H4 eq_refl).
Qed.

(** ** The data of every type *)
Section Data.
  Context (c : cfg) (d : bytes) (B : byte_list d) (A : allocatable d).
  Local Notation faults t p := (errs d p (first_fault (data_parts c d t))).
  Ltac row := first
    [ apply errs_done
    | apply part_rest
    | apply part_block; [exact B|]; intros ? ?
    | apply part_u8; [exact B|]; intros ?
    | apply part_u16; [exact B|]; intros ?
    | apply part_u32; intros ?
    | apply part_run; intros ?
    | apply part_number; intros ?
    | apply part_name; [exact B|]; intros ?
    | apply part_string; [exact B|]; intros ?
    | apply part_text; [exact B|]; intros ?
    | eapply part_e8; [exact B|first [apply alg_faithful|apply fptype_faithful|apply salg_faithful|apply digest_type_faithful|apply cert_usage_faithful|apply selector_faithful|apply matching_faithful]|]; intros ?
    | eapply part_e16; [exact B|first [apply rtype_faithful|apply idtype_faithful|apply tkmode_faithful|apply tkerr_faithful|apply tserr_faithful]|]; intros ? ].
  Ltac rows := cbn [data_parts]; repeat row.
  Lemma errs_soa : faults SOA soa_try_from. Proof. unfold soa_try_from. rows. Qed.
  Lemma errs_wks : faults WKS wks_try_from. Proof. unfold wks_try_from. rows. Qed.
  Lemma errs_hinfo : faults HINFO hinfo_try_from. Proof. unfold hinfo_try_from. rows. Qed.
  Lemma errs_minfo : faults MINFO minfo_try_from. Proof. unfold minfo_try_from. rows. Qed.
  Lemma errs_mx : faults MX mx_try_from. Proof. unfold mx_try_from. rows. Qed.
  Lemma errs_loc : faults LOC loc_try_from. Proof. unfold loc_try_from. rows. Qed.
  Lemma errs_srv : faults SRV srv_try_from. Proof. unfold srv_try_from. rows. Qed.
  Lemma errs_naptr : faults NAPTR naptr_try_from. Proof. unfold naptr_try_from. rows. Qed.
  Lemma errs_ds : faults DS ds_try_from. Proof. unfold ds_try_from. rows. Qed.
  Lemma errs_sshfp : faults SSHFP sshfp_try_from. Proof. unfold sshfp_try_from. rows. Qed.
  Lemma errs_rrsig : faults RRSIG (rrsig_try_from c). Proof. unfold rrsig_try_from. rows. Qed.
  Lemma errs_dnskey : faults DNSKEY dnskey_try_from. Proof. unfold dnskey_try_from. rows. Qed.
  Lemma errs_tlsa : faults TLSA tlsa_try_from. Proof. unfold tlsa_try_from. rows. Qed.
  Lemma errs_tkey : faults TKEY tkey_try_from. Proof. unfold tkey_try_from. rows. Qed.
  Lemma errs_tsig : faults TSIG tsig_try_from. Proof. unfold tsig_try_from. rows. Qed.
  Lemma errs_uri : faults URI uri_try_from. Proof. unfold uri_try_from. rows. Qed.
  Lemma errs_nsec : faults NSEC (nsec_try_from c).
  Proof. unfold nsec_try_from. rows. apply errs_last, errs_tail, types_errs, B. Qed.
  Lemma errs_csync : faults CSYNC (csync_try_from c).
  Proof.
    unfold csync_try_from. rows. apply errs_part.
    - eapply dec_ext; [|apply dec_csync_flags, B]. intros v q e. cbv beta. tauto.
    - apply csync_flags_errs, B.
    - cbv beta. intros v q m (_ & H). inside.
    - intros ?. apply errs_last, errs_tail, types_errs, B.
  Qed.
  Lemma errs_svcb : faults SVCB (svcb_try_from c).
  Proof. unfold svcb_try_from. rows. apply errs_last, errs_tail, params_errs; assumption. Qed.
  Lemma errs_caa : faults CAA caa_try_from.
  Proof. unfold caa_try_from. rows. apply errs_if; [apply part_refused|]. rows. Qed.
  Lemma errs_dhcid : faults DHCID dhcid_try_from.
  Proof. unfold dhcid_try_from. rows. destruct (_ =? 1); cbn [negb]; [rows|apply part_refused]. Qed.
  Lemma errs_apl : faults APL apl_try_from.
  Proof.
    unfold apl_try_from. cbn [data_parts]. apply part_u16; [exact B|]. intros fam. row.
    apply errs_part_in; [apply dec_u8, B|apply errs_u8|intros; inside|]. intros o q m (Ho & _). apply number1 in Ho; try exact B.
    pose proof (Forall_nth_error _ _ _ _ B Ho) as Lo. cbn beta zeta in *. rewrite land_126 by exact Lo. row.
    destruct fam as [|[[fam|fam|]|[fam|fam|]|]]; cbn [N.eqb Pos.eqb orb]; first [apply errs_done|apply part_refused].
  Qed.
  Lemma errs_hip : faults HIP hip_try_from.
  Proof.
    unfold hip_try_from. do 5 row. apply errs_last. intros e q L. unfold remaining. cbn [data pos].
    rewrite <- (names_errs d B e q L). destruct (Nat.eqb_spec (length d - q) 0) as [Z|NZ].
    - cbn [fst]. split; [discriminate|]. unfold loop_remaining, remaining. cbn [data pos]. rewrite Z. cbn [while_remaining]. unfold remaining. cbn [data pos]. rewrite Z. discriminate.
    - rewrite err_bind. split; [intros [H|(l & b & _ & H)]; [exact H|discriminate]|auto].
  Qed.
  Lemma errs_ipseckey : faults IPSECKEY ipseckey_try_from.
  Proof.
    unfold ipseckey_try_from. do 3 row.
    assert (X : forall g, errs d (match g with
        | 0 => _ <- extract_u8 ;; ret GwNone
        | 1 => x <- extract_u32 ;; ret (GwV4 x)
        | 2 => x <- extract_bytes 16 ;; ret (GwV6 (unbe x))
        | 3 => f <- extract_fqdn ;; ret (GwDomain f)
        | _ => fail (InvalidIpSecKeyGatewayType g) end) (first_fault (match g with
        | 0 => integer d 1 ,, Done
        | 1 => integer d 4 ,, Done
        | 2 => integer d 16 ,, Done
        | 3 => domain_name d ,, Done
        | _ => refused (InvalidIpSecKeyGatewayType g) ,, Done
        end))).
    { intros g. destruct g as [|[[g|g|]|[g|g|]|]]; try apply part_refused; rows. }
    intros e q L. rewrite err_bind, (X _ e q L). split; [|auto]. intros [H|(g & b & E & H)]; [exact H|]. exfalso.
    apply dec_gateway in E; [|exact B|exact L]. destruct E as (m & _ & Lm & ->). apply part_rest in H; [exact H|exact Lm].
  Qed.
  Theorem rdata_errs t : faults t (rdata_from c t).
  Proof.
    destruct t; cbn [rdata_from]; apply errs_pmap.
    all: first [apply errs_soa|apply errs_wks|apply errs_hinfo|apply errs_minfo|apply errs_mx|apply errs_loc|apply errs_srv|apply errs_naptr|apply errs_ds|apply errs_sshfp|apply errs_rrsig|apply errs_dnskey
      |apply errs_tlsa|apply errs_tkey|apply errs_tsig|apply errs_uri|apply errs_nsec|apply errs_csync|apply errs_svcb|apply errs_caa|apply errs_dhcid|apply errs_apl|apply errs_hip|apply errs_ipseckey
      |apply errs_last; first [apply errs_u32|apply errs_name, B|apply txt_errs, B|apply errs_tail, errs_bytes|apply opt_errs, B|apply errs_bytes]|eapply errs_ext; [|apply errs_rest]; reflexivity].
  Qed.
End Data.

(** ** Records, questions, messages *)
Lemma framed_errs c d t n : byte_list d -> allocatable d -> errs d (framed (N.to_nat n) (rdata_from c t)) (fault (data_part c d t n)).
Proof.
  intros B A e q L. cbn [fault data_part]. unfold framed, sub_buffer, cut. cbn [data pos].
  destruct (Nat.ltb_spec (length d) (q + N.to_nat n)) as [H|H].
  - cbn [fst]. split; [intros X; injection X as <-; left; auto|]. intros [(_ & ->)|(X & _)]; [reflexivity|lia].
  - assert (Le : length (firstn (q + N.to_nat n) d) = (q + N.to_nat n)%nat) by (rewrite firstn_length; lia).
    assert (A' : allocatable (firstn (q + N.to_nat n) d)) by (unfold allocatable in *; lia).
    rewrite <- (rdata_errs c _ (byte_list_firstn _ d B) A' t e q) by lia.
    destruct (rdata_from c t (mkbuf (firstn (q + N.to_nat n) d) q)) as [[v|x| |] sb]; cbn [fst].
    + split; [|intros [(X & _)|(_ & X)]; [lia|discriminate]]. intros X. exfalso. apply err_bind in X. destruct X as [X|(u & b & _ & X)]; [|discriminate].
      unfold advance in X. cbn [data pos] in X. destruct (Nat.ltb_spec (length d) (q + N.to_nat n)); [lia|discriminate].
    + split; [intros X; injection X as <-; right; auto|]. intros [(X & _)|(_ & X)]; [lia|injection X as ->; reflexivity].
    + split; [discriminate|]. intros [(X & _)|(_ & X)]; [lia|discriminate].
    + split; [discriminate|]. intros [(X & _)|(_ & X)]; [lia|discriminate].
Qed.
Lemma record_errs c d : byte_list d -> allocatable d -> errs d (rr_try_from c) (record_fault c d).
Proof.
  intros B A. unfold rr_try_from, record_fault. apply part_name; [exact B|]. intros f. eapply part_e16; [exact B|apply rtype_faithful|]. intros t.
  apply part_u16; [exact B|]. intros v. apply part_number. intros ttl. apply part_u16; [exact B|]. intros len.
  apply errs_last. apply errs_tail. apply framed_errs; assumption.
Qed.
Lemma class_errs d : byte_list d -> errs d (extract_u16_as qclass_try_from) (fault (class_part d)).
Proof.
  intros B e q L. unfold extract_u16_as. rewrite err_bind, (errs_u16 d e q L). cbn [fault class_part]. split; (intros [H|H]; [left; exact H|right]).
  - destruct H as (v & b & E & H). apply dec_u16 in E; [|exact B|exact L]. destruct E as (m & U & _ & ->). unfold lift in H. cbn [fst] in H. exists v, m. split; [exact U|].
    assert (NX : forall k, qclass_code k <> v mod 32768). { intros k E. apply qclass_try_ok in E. congruence. }
    split; [exact NX|]. rewrite qclass_reject in H by exact NX. injection H as <-. reflexivity.
  - destruct H as (v & m & U & NX & ->). pose proof (num_in _ _ _ _ _ U) as Lm. exists v, (mkbuf d m). split; [apply dec_u16; [exact B|exact L|eauto]|]. unfold lift. cbn [fst]. apply qclass_reject, NX.
Qed.
Lemma question_errs c d : byte_list d -> errs d (question_try_from c) (question_fault c d).
Proof.
  intros B. unfold question_try_from, question_fault. apply part_name; [exact B|]. intros f. eapply part_e16; [exact B|apply qtype_faithful|]. intros t.
  apply errs_last. destruct (mdns c); [|apply errs_tail, class_errs, B].
  intros e q L. rewrite <- (class_errs d B e q L). unfold extract_u16_as. rewrite !err_bind.
  split; (intros [H|(v & b & E & H)]; [left; exact H|right; exists v, b; split; [exact E|]]).
  - destruct (negb _).
    + apply err_bind in H. destruct H as [H|(k & b' & _ & H)]; [|discriminate]. unfold lift in *. cbn [fst] in *. rewrite land_15, <- qclass_low in H. exact H.
    + apply err_bind in H. destruct H as [H|(k & b' & _ & H)]; [exact H|discriminate].
  - destruct (negb _); apply err_bind; left; [|exact H]. unfold lift in *. cbn [fst] in *. rewrite land_15, <- qclass_low. exact H.
Qed.
Lemma section_errs_iff {X} (p : P X) (entry : bytes -> nat -> X -> nat -> Prop) (bad : nat -> Prop) e
  (got : forall d q x b, byte_list d -> (q <= length d)%nat -> p (mkbuf d q) = (Ok x, b) -> exists m, entry d q x m /\ b = mkbuf d m)
  (read : forall d q x m, entry d q x m -> p (mkbuf d q) = (Ok x, mkbuf d m))
  (ends : forall d q x m, entry d q x m -> (q < m <= length d)%nat) d n :
  byte_list d -> (forall q, (q <= length d)%nat -> fst (p (mkbuf d q)) = Err e <-> bad q) -> forall q, (q <= length d)%nat ->
  fst (repeatP n p (mkbuf d q)) = Err e <-> section_fails (entry d) bad (N.of_nat n) q.
Proof.
  intros B badp. induction n as [|n IH]; intros q L; cbn [repeatP].
  - split; [discriminate|]. intros (xs & m & H & _). lia.
  - rewrite err_bind. split.
    + intros [H|(x & b & E & H)].
      * exists [], q. split; [cbn [length]; lia|]. split; [constructor|]. apply badp; assumption.
      * destruct (got _ _ _ _ B L E) as (m & En & ->). pose proof (ends _ _ _ _ En) as Le.
        apply err_bind in H. destruct H as [H|(l & b & _ & H)]; [|discriminate].
        apply IH in H; [|lia]. destruct H as (xs & m' & Lx & C & Bm). exists (x :: xs), m'. cbn [length].
        split; [lia|]. split; [econstructor; [exact En|lia|exact C]|exact Bm].
    + intros (xs & m & Lx & C & Bm). inversion C as [|? x m' ys ? En Lm C']; subst.
      * left. apply badp; assumption.
      * right. exists x, (mkbuf d m'). split; [apply read; assumption|]. apply err_bind. left. apply IH.
        { pose proof (ends _ _ _ _ En). lia. }
        exists ys, m. cbn [length] in Lx. split; [lia|]. split; assumption.
Qed.
Theorem message_errs_iff c d e : byte_list d -> allocatable d -> packet_try_from c d = Err e <-> message_fault c d e.
Proof.
  intros B A. unfold packet_try_from, packet_try_from_buf, message_fault. rewrite err_bind.
  destruct (le_lt_dec 12 (length d)) as [L|L].
  2: { split.
       - intros H. left. split; [exact L|]. clear B A. do 12 (destruct d as [|? d]; [destruct H as [H|(a & b & E & _)]; [injection H as <-; reflexivity|discriminate]|]). cbn [length] in L. lia.
       - intros [(_ & ->)|(H & _)]; [left|lia]. clear B A. do 12 (destruct d as [|? d]; [reflexivity|]). cbn [length] in L. lia. }
  assert (B12 : byte_list (firstn 12 d)) by (apply firstn_byte_list, B).
  destruct (header_bytes12 d B12 L) as (h & Th & Eh & Vh). rewrite fields_firstn in Vh by exact L.
  assert (QS : forall n q, (q <= length d)%nat -> forall xs b, repeatP n (question_try_from c) (mkbuf d q) = (Ok xs, b) <->
             exists e, length xs = n /\ consecutive (question_at c d) q xs e /\ b = mkbuf d e).
  { intros n q Lq xs b. split.
    - intros E. apply (section_got _ _ (question_got c) (question_read c) (question_ends c) d _ B _ _ _ Lq) in E.
      destruct E as (m & C & -> & Ln & _). exists m. auto.
    - intros (m & <- & C & ->). apply (section_read _ _ (question_read c) _ _ _ _ C). }
  assert (RW : forall q xs m, consecutive (record_at c d) q xs m <-> consecutive (record_on_wire c d) q xs m).
  { intros q xs m. split; intros C; (eapply consecutive_mono; [|exact C]); intros; apply record_wire; assumption. }
  assert (RS : forall n q, (q <= length d)%nat -> forall xs b, repeatP n (rr_try_from c) (mkbuf d q) = (Ok xs, b) <->
             exists e, length xs = n /\ consecutive (record_on_wire c d) q xs e /\ b = mkbuf d e).
  { intros n q Lq xs b. split.
    - intros E. apply (section_got _ _ (record_got c) (record_read c) (record_ends c) d _ B _ _ _ Lq) in E.
      destruct E as (m & C & -> & Ln & _). exists m. apply RW in C. auto.
    - intros (m & <- & C & ->). apply RW in C. apply (section_read _ _ (record_read c) _ _ _ _ C). }
  assert (QF : forall n q, (q <= length d)%nat -> fst (repeatP (N.to_nat n) (question_try_from c) (mkbuf d q)) = Err e <->
             section_fails (question_at c d) (question_fault c d e) n q).
  { intros n q Lq. rewrite <- (N2Nat.id n) at 2. apply (section_errs_iff _ (question_at c)); try assumption.
    - apply question_got. - apply question_read. - apply question_ends. - intros q' L'. apply question_errs; assumption. }
  assert (RF : forall n q, (q <= length d)%nat -> fst (repeatP (N.to_nat n) (rr_try_from c) (mkbuf d q)) = Err e <->
             section_fails (record_on_wire c d) (record_fault c d e) n q).
  { intros n q Lq. rewrite <- (N2Nat.id n) at 2. rewrite (section_errs_iff _ (record_at c) (record_fault c d e)); try assumption.
    - apply section_fails_ext; [intros; apply record_wire; assumption|reflexivity].
    - apply record_got. - apply record_read. - apply record_ends. - intros q' L'. apply record_errs; assumption. }
  assert (QE : forall q xs m, (q <= length d)%nat -> consecutive (question_at c d) q xs m -> (m <= length d)%nat).
  { intros q xs m Lq C. apply (section_end _ (question_at c) (question_got c) (question_read c) (question_ends c) d q xs m Lq C). }
  assert (RE : forall q xs m, (q <= length d)%nat -> consecutive (record_on_wire c d) q xs m -> (m <= length d)%nat).
  { intros q xs m Lq C. apply RW in C. apply (section_end _ (record_at c) (record_got c) (record_read c) (record_ends c) d q xs m Lq C). }
  rewrite <- Vh. cbn [view v_qd v_an v_ns v_ar].
  split.
  - intros [H|(h' & b & E & H)]; [rewrite Eh in H; discriminate|]. rewrite Eh in E. injection E as <- <-. right. split; [exact L|].
    apply err_bind in H. destruct H as [H|(qs & b & E & H)]; [left; apply QF; assumption|right].
    apply QS in E; [|exact L]. destruct E as (e1 & L1 & C1 & ->). pose proof (QE _ _ _ L C1) as M1. exists e1. split; [exists qs; split; [lia|exact C1]|].
    apply err_bind in H. destruct H as [H|(an & b & E & H)]; [left; apply RF; assumption|right].
    apply RS in E; [|exact M1]. destruct E as (e2 & L2 & C2 & ->). pose proof (RE _ _ _ M1 C2) as M2. exists e2. split; [exists an; split; [lia|exact C2]|].
    apply err_bind in H. destruct H as [H|(au & b & E & H)]; [left; apply RF; assumption|right].
    apply RS in E; [|exact M2]. destruct E as (e3 & L3 & C3 & ->). pose proof (RE _ _ _ M2 C3) as M3. exists e3. split; [exists au; split; [lia|exact C3]|].
    apply err_bind in H. destruct H as [H|(ad & b & E & H)]; [apply RF; assumption|discriminate].
  - intros [(H & _)|[_ H]]; [lia|]. right. exists h, (mkbuf d 12). split; [exact Eh|]. apply err_bind.
    destruct H as [H|(e1 & (qs & L1 & C1) & H)]; [left; apply QF; assumption|right].
    pose proof (QE _ _ _ L C1) as M1. exists qs, (mkbuf d e1). split; [apply QS; [exact L|exists e1; split; [lia|auto]]|]. apply err_bind.
    destruct H as [H|(e2 & (an & L2 & C2) & H)]; [left; apply RF; assumption|right].
    pose proof (RE _ _ _ M1 C2) as M2. exists an, (mkbuf d e2). split; [apply RS; [exact M1|exists e2; split; [lia|auto]]|]. apply err_bind.
    destruct H as [H|(e3 & (au & L3 & C3) & H)]; [left; apply RF; assumption|right].
    pose proof (RE _ _ _ M2 C3) as M3. exists au, (mkbuf d e3). split; [apply RS; [exact M2|exists e3; split; [lia|auto]]|]. apply err_bind.
    left. apply RF; assumption.
Qed.

(** ** Which errors there are *)
Fixpoint all_parts (Q : dns_error -> Prop) (l : parts) : Prop :=
  match l with Done => True | And x more => (forall e p, fault x e p -> Q e) /\ forall v, all_parts Q (more v) end.
Lemma all_parts_fault Q l : all_parts Q l -> forall e p, first_fault l e p -> Q e.
Proof.
  induction l as [|x more IH]; cbn [all_parts first_fault]; [intros _ e p []|]. intros (H & K) e p [F|(v & m & _ & F)]; [apply (H e p F)|]. apply (IH v (K v) e m F).
Qed.
Lemma cut_kind d n e p : cut d n e p -> reported e.
Proof. intros (_ & ->). exact I. Qed.
Ltac kind := cbn [fault integer run] in *; first [exact I|eassumption|eapply cut_kind; eassumption|subst; exact I].
Lemma short_string_kind d e p : short_string d e p -> reported e.
Proof. intros [H|(n & _ & H)]; kind. Qed.
Lemma name_kind d e p : name_fault d e p -> reported e.
Proof. intros (o & q & _ & [(t & _ & _ & ->)|[(a & _ & _ & H)|(a & _ & _ & H)]]); kind. Qed.
Lemma enum_kind {X} d k (dom : X -> Prop) code error e p : (forall n, reported (error n)) -> fault (enum d k dom code error) e p -> reported e.
Proof. intros R. cbn [fault enum]. intros [H|(v & m & _ & _ & ->)]; [kind|apply R]. Qed.
Lemma all_kind {X} d (entry : nat -> X -> nat -> Prop) (bad : dns_error -> nat -> Prop) e p : (forall e p, bad e p -> reported e) -> all_fault d entry bad e p -> reported e.
Proof. intros R (xs & m & _ & _ & H). apply (R e m H). Qed.
Lemma window_kind c d e p : window_fault c d e p -> reported e.
Proof.
  intros [H|(x & m & _ & (n & _ & _ & _ & _ & ->))]; [|exact I]. revert H. apply all_parts_fault. cbn [all_parts]. split; [intros ? ? ?; kind|]. intros _. split; [intros ? ? ?; kind|]. intros n. split; [intros ? ? ?; kind|]. intros _. exact I.
Qed.
Lemma list_kind c element el len e p : (forall e p, fault element e p -> reported e) -> fault (list_of c element el len) e p -> reported e.
Proof. intros R. cbn [fault list_of]. intros (xs & m & _ & H & _). apply (R e m H). Qed.
Lemma param_kind c d e p : param_fault c d e p -> reported e.
Proof.
  unfold param_fault. apply all_parts_fault. cbn [all_parts]. split; [intros e' p'; apply enum_kind; intros n; exact I|]. intros k. split; [intros e' p' H; kind|]. intros len.
  destruct k; cbn [svcb_value all_parts]; try exact I; (split; [|intros _; exact I]); intros e' p'; try (intros H; kind; fail).
  - apply list_kind. intros e1 p1. apply enum_kind. intros n; exact I.
  - apply list_kind. intros e1 p1. apply short_string_kind.
Qed.
Lemma data_kind c d t : all_parts reported (data_parts c d t).
Proof.
  destruct t; cbn [data_parts].
  all: repeat match goal with
    | |- all_parts _ Done => exact I
    | |- all_parts _ (And _ _) => cbn [all_parts]; split
    | |- all_parts _ (if ?a then _ else _) => destruct a
    | |- all_parts _ (match ?a with 0 => _ | N.pos _ => _ end) => destruct a as [|[[?|?|]|[?|?|]|]]
    | |- True => exact I
    | |- (forall e p, fault _ e p -> _) /\ _ => split
    | |- forall v : value _, _ => intros ?
    | |- forall e p, fault (domain_name _) e p -> _ => intros ? ?; apply name_kind
    | |- forall e p, fault (integer _ _) e p -> _ => intros ? ? ?; kind
    | |- forall e p, fault (run _ _) e p -> _ => intros ? ? ?; kind
    | |- forall e p, fault (string _) e p -> _ => intros ? ?; apply short_string_kind
    | |- forall e p, fault (text _) e p -> _ => intros ? ? [?|(? & ? & _ & _ & ->)]; [eapply short_string_kind; eassumption|exact I]
    | |- forall e p, fault (block _) e p -> _ => intros ? ? [?|(? & ? & _ & ?)]; kind
    | |- forall e p, fault (enum _ _ _ _ _) e p -> _ => intros ? ?; apply enum_kind; intros ?; exact I
    | |- forall e p, fault (refused _) e p -> _ => intros ? ? ->; exact I
    | |- forall e p, fault (types _ _) e p -> _ => intros ? ?; apply all_kind; intros ? ?; apply window_kind
    | |- forall e p, fault (all _ _ _) e p -> _ => intros ? ?; apply all_kind; intros ? ?;
        first [apply short_string_kind|apply name_kind|apply param_kind|apply all_parts_fault]
    end.
Qed.
Lemma message_kind c d e : message_fault c d e -> reported e.
Proof.
  assert (Q : forall e p, question_fault c d e p -> reported e).
  { intros e' p'. apply all_parts_fault. cbn [all_parts]. split; [intros ? ?; apply name_kind|]. intros _. split; [intros ? ?; apply enum_kind; intros ?; exact I|]. intros _. split; [|intros _; exact I].
    intros e1 p1. cbn [fault class_part]. intros [H|(v & m & _ & _ & ->)]; kind. }
  assert (R : forall e p, record_fault c d e p -> reported e).
  { intros e' p'. apply all_parts_fault. cbn [all_parts]. split; [intros ? ?; apply name_kind|]. intros _. split; [intros ? ?; apply enum_kind; intros ?; exact I|]. intros t.
    split; [intros ? ? ?; kind|]. intros _. split; [intros ? ? ?; kind|]. intros _. split; [intros ? ? ?; kind|]. intros len. split; [|intros _; exact I].
    intros e1 p1. cbn [fault data_part]. intros [H|(_ & H)]; [kind|]. revert H. apply all_parts_fault, data_kind. }
  assert (SQ : forall n p, section_fails (question_at c d) (question_fault c d e) n p -> reported e) by (intros n p (xs & m & _ & _ & H); apply (Q e m H)).
  assert (SR : forall n p, section_fails (record_on_wire c d) (record_fault c d e) n p -> reported e) by (intros n p (xs & m & _ & _ & H); apply (R e m H)).
  intros [(_ & ->)|(_ & [H|(e1 & _ & [H|(e2 & _ & [H|(e3 & _ & H)])])])]; [exact I|eapply SQ, H|eapply SR, H|eapply SR, H|eapply SR, H].
Qed.
