(** * Exactly which record data and messages stop the parser: proofs *)
From Coq Require Import Lia ZifyBool ZifyNat ZifyN.
From Verif Require Import Base Utf8 Buffer Fqdn Header Types RDataBasic Bitmap Svcb RDataSec RData Packet BaseFacts Utf8Facts BufferFacts NameSpec FqdnLoop FqdnFacts BitmapFacts RDataReads
  CodeSpec CodeFacts RDataFacts ParseFacts HeaderSpec WireSpec WireFacts SvcbParse FailSpec FailFacts FieldSpec FieldFacts ReadSpec ReadFacts MdnsFacts StopSpec.
Ltac Zify.zify_post_hook ::= Z.div_mod_to_equations.

(** [p] fails on the octets [d] exactly where [F] says. *)
Definition stops {A} (d : bytes) (p : P A) (F : failure -> nat -> Prop) : Prop := forall f q, (q <= length d)%nat ->
  fails f (fst (p (mkbuf d q))) <-> F f q.
Lemma stops_ext {A} d (p : P A) F G : (forall f q, F f q <-> G f q) -> stops d p F -> stops d p G.
Proof. intros H S f q L. rewrite (S f q L). apply H. Qed.
Lemma stops_calm {A} d (p : P A) : calm p -> stops d p (fun _ _ => False).
Proof. intros C f q L. split; [apply C|intros []]. Qed.
Lemma stops_pmap {A B} d (g : A -> B) (p : P A) F : stops d p F -> stops d (pmap g p) F.
Proof.
  intros S f q L. unfold pmap. rewrite fails_bind, (S f q L). split; [intros [H|(a & b & _ & H)]; [exact H|destruct f; discriminate]|auto].
Qed.
Lemma stops_bind {A B} d (p : P A) (k : A -> P B) R F G : dec d p R -> stops d p F -> (forall a, stops d (k a) (G a)) ->
  stops d (bind p k) (fun f q => F f q \/ exists a m, R a q m /\ (m <= length d)%nat /\ G a f m).
Proof.
  intros D S1 S2 f q L. rewrite fails_bind, (S1 f q L). split; (intros [H|(a & H)]; [left; exact H|right]).
  - destruct H as (b & E & H). apply D in E; [|exact L]. destruct E as (m & HR & Lm & ->). exists a, m. split; [exact HR|]. split; [exact Lm|]. apply S2; assumption.
  - destruct H as (m & HR & Lm & H). exists a, (mkbuf d m). split; [apply D; [exact L|eauto]|]. apply S2; assumption.
Qed.
(** In front something that never fails. *)
Lemma stops_behind {A B} d (p : P A) (k : A -> P B) R ps (bad : failure -> nat -> Prop) : dec d p R -> calm p ->
  (forall a q m, R a q m -> (m <= length d)%nat) -> (forall a, stops d (k a) (fun f => behind ps (bad f))) ->
  stops d (bind p k) (fun f => behind (some R :: ps) (bad f)).
Proof.
  intros D C I S. eapply stops_ext; [|eapply (stops_bind d p k R (fun _ _ => False) (fun _ f => behind ps (bad f))); [exact D|apply stops_calm, C|exact S]].
  intros f q. unfold behind. cbn [laid]. split.
  - intros [[]|(a & m & HR & _ & e & H & Hb)]. exists e. split; [exists m; split; [exists a; exact HR|exact H]|exact Hb].
  - intros (e & (m & (a & HR) & H) & Hb). right. exists a, m. split; [exact HR|]. split; [apply (I _ _ _ HR)|exists e; auto].
Qed.
Lemma behind_nil (bad : nat -> Prop) q : behind [] bad q <-> bad q.
Proof. unfold behind. cbn [laid]. split; [intros (m & <- & H); exact H|eauto]. Qed.
Lemma stops_here {A} d (p : P A) (bad : failure -> nat -> Prop) : stops d p bad -> stops d p (fun f => behind [] (bad f)).
Proof. apply stops_ext. intros f q. symmetry. apply behind_nil. Qed.
Lemma behind_ext ps (bad bad' : nat -> Prop) q : (forall p, bad p <-> bad' p) -> behind ps bad q <-> behind ps bad' q.
Proof. intros H. unfold behind. split; intros (m & L & X); exists m; (split; [exact L|apply H, X]). Qed.
(** A last part that never fails. *)
Lemma stops_tail {A B} d (p : P A) (k : A -> P B) F : stops d p F -> (forall a, calm (k a)) -> stops d (bind p k) F.
Proof.
  intros S C f q L. rewrite fails_bind, (S f q L). split; [intros [H|(a & b & _ & H)]; [exact H|destruct (C _ _ _ H)]|auto].
Qed.
Lemma stops_name d : byte_list d -> stops d extract_fqdn (fun f => bad_name f d).
Proof. intros B f q L. apply fails_fqdn, B. Qed.

(** ** Loops *)
Section Loop.
  Context {A X : Type} (d : bytes) (step : A -> P A) (entry : nat -> X -> nat -> Prop) (bad : failure -> nat -> Prop).
  Hypothesis got : forall a q v b, (q <= length d)%nat -> step a (mkbuf d q) = (Ok v, b) -> exists x e, entry q x e /\ (q < e <= length d)%nat /\ b = mkbuf d e.
  Hypothesis read : forall a q x e, entry q x e -> (q < e <= length d)%nat -> exists v, step a (mkbuf d q) = (Ok v, mkbuf d e).
  Hypothesis stop : forall a, stops d (step a) bad.
  Lemma while_stops f : forall fuel a q, (q <= length d)%nat -> (length d - q <= fuel)%nat ->
    fails f (fst (while_remaining fuel step a (mkbuf d q))) <-> exists xs p, consecutive entry q xs p /\ (p < length d)%nat /\ bad f p.
  Proof.
    induction fuel as [|n IH]; intros a q L F; cbn [while_remaining]; unfold remaining; cbn [data pos];
      (destruct (Nat.eqb_spec (length d - q) 0) as [Z|NZ]; [assert (q = length d) by lia; subst q|]); try lia.
    1, 2: split; [intros H; destruct f; discriminate|]; intros (xs & p & C & Lp & _); apply consecutive_start in C; lia.
    rewrite fails_bind. split.
    - intros [H|(v & b & E & H)].
      + exists [], q. split; [constructor|]. split; [lia|]. apply (stop a f q L), H.
      + destruct (got _ _ _ _ L E) as (x & e & En & Le & ->). apply IH in H; [|lia|lia]. destruct H as (xs & p & C & Lp & H).
        exists (x :: xs), p. split; [econstructor; [exact En|lia|exact C]|auto].
    - intros (xs & p & C & Lp & H). inversion C as [|? x m ys ? En Lm C']; subst.
      + left. apply (stop a f p L), H.
      + right. pose proof (consecutive_start _ _ _ _ C'). destruct (read a q x m En ltac:(lia)) as (v & E). exists v, (mkbuf d m). split; [exact E|].
        apply IH; [lia|lia|]. exists ys, p. auto.
  Qed.
  Lemma loop_stops a : stops d (loop_remaining step a) (fun f q => exists xs p, consecutive entry q xs p /\ (p < length d)%nat /\ bad f p).
  Proof. intros f q L. unfold loop_remaining, remaining. cbn [data pos]. apply while_stops; [exact L|lia]. Qed.
End Loop.

(** ** Type bitmaps *)
Lemma insert16_fails f c w acc p : fails f (insert16 c w acc p) <-> f = Panics /\ ovf c = true /\ 65536 <= 256 * w + p.
Proof.
  pose proof (fun n => faithful_total _ _ _ _ _ n (rtype_faithful c)) as T.
  assert (X : forall n, ~ fails f (let! t := rtype_try_from c n in Ok (set_insert rtype_code t acc))).
  { intros n H. destruct (T n) as [[x E]|[x E]]; rewrite E in H; destruct f; discriminate. }
  unfold insert16, insert_code. destruct (N.ltb_spec (256 * w + p) 65536) as [H|H].
  - split; [intros F; destruct (X _ F)|lia].
  - destruct (ovf c); [|split; [intros F; destruct (X _ F)|intros (_ & F & _); discriminate]].
    destruct f; split; intros F; try discriminate F; try reflexivity; auto. destruct F as (F & _). discriminate F.
Qed.
Lemma rfold16_fails f c w ps : forall acc, incr ps -> fails f (rfold (insert16 c w) ps acc) <->
  f = Panics /\ ovf c = true /\ (exists p, In p ps /\ 65536 <= 256 * w + p) /\ (forall p, In p ps -> 256 * w + p < 65536 -> exists t, bit_means c (256 * w + p) t).
Proof.
  induction ps as [|p ps IH]; intros acc I; cbn [rfold].
  - split; [intros H; destruct f; discriminate|]. intros (_ & _ & (p & [] & _) & _).
  - assert (I' : incr ps /\ forall x, In x ps -> p < x).
    { destruct I as (I1 & I2). rewrite Forall_forall in I1. auto. }
    destruct I' as (I' & LT).
    destruct (insert16 c w acc p) as [a|e| |] eqn:E; cbn [rbind].
    + pose proof (proj1 (insert16_iff _ _ _ _ _) E) as (t & M & _). rewrite (IH a I'). split.
      * intros (-> & O & (x & J & Hx) & H). split; [reflexivity|]. split; [exact O|]. split; [exists x; split; [right; exact J|exact Hx]|].
        intros y [<-|J'] Ly; [exists t; exact M|apply H; assumption].
      * intros (-> & O & (x & J & Hx) & H). split; [reflexivity|]. split; [exact O|]. split.
        -- destruct J as [<-|J]; [|exists x; auto]. exfalso. destruct M as (_ & _ & [M|M]); [lia|congruence].
        -- intros y J' Ly. apply H; [right; exact J'|exact Ly].
    + split; [intros H; destruct f; discriminate|]. intros (-> & O & (x & J & Hx) & H). exfalso.
      assert (Lp : 256 * w + p < 65536 \/ 65536 <= 256 * w + p) by lia. destruct Lp as [Lp|Lp].
      * destruct (H p (or_introl eq_refl) Lp) as (t & M). rewrite (proj2 (insert16_iff c w acc p _)) in E by eauto. discriminate.
      * pose proof (proj2 (insert16_fails Panics c w acc p) (conj eq_refl (conj O Lp))) as F. cbn [fails] in F. congruence.
    + assert (F : fails Panics (insert16 c w acc p)) by exact E. apply insert16_fails in F. destruct F as (_ & O & Lp). split.
      * intros H. split; [destruct f; [reflexivity|discriminate]|]. split; [exact O|]. split; [exists p; split; [left; reflexivity|exact Lp]|].
        intros y [<-|J] Ly; [lia|]. specialize (LT y J). lia.
      * intros (-> & _). reflexivity.
    + assert (F : fails Loops (insert16 c w acc p)) by exact E. apply insert16_fails in F. destruct F as (F & _). discriminate.
Qed.
Lemma marked_one x n : marked [x] n <-> exists p, In p (positions 0 (snd x)) /\ n = 256 * fst x + p.
Proof.
  unfold marked. split.
  - intros (y & p & [<-|[]] & Bp & ->). exists p. split; [apply bit_set_positions, Bp|reflexivity].
  - intros (p & I & ->). exists x, p. split; [left; reflexivity|]. split; [apply bit_set_positions, I|reflexivity].
Qed.
Definition window_stops (f : failure) (c : cfg) (d : bytes) (q : nat) : Prop := f = Panics /\ ovf c = true /\ exists x e,
  window_at d q x e /\ (exists n, marked [x] n /\ 65536 <= n) /\ (forall n, marked [x] n -> n < 65536 -> exists t, bit_means c n t).
Lemma window_step_stops c d acc : byte_list d -> stops d (window_step c acc) (fun f => window_stops f c d).
Proof.
  intros B f q L.
  assert (X : forall w bm, w < 256 -> (length bm < 256)%nat -> fails f (bitmap_types c w 0 bm acc) <-> f = Panics /\ ovf c = true /\
     (exists n, marked [(w, bm)] n /\ 65536 <= n) /\ (forall n, marked [(w, bm)] n -> n < 65536 -> exists t, bit_means c n t)).
  { intros w bm W Lb. rewrite bitmap_types16; [|exact W|lia]. rewrite rfold16_fails by apply positions_incr. split.
    - intros (-> & O & (p & I & Hp) & H). split; [reflexivity|]. split; [exact O|]. split.
      + exists (256 * w + p). split; [apply marked_one; exists p; auto|exact Hp].
      + intros n M Ln. apply marked_one in M. destruct M as (p' & I' & ->). apply H; assumption.
    - intros (-> & O & (n & M & Hn) & H). split; [reflexivity|]. split; [exact O|]. apply marked_one in M. destruct M as (p & I & ->). cbn [fst snd] in *. split.
      + exists p. auto.
      + intros p' I' Lp. apply H; [apply marked_one; exists p'; auto|exact Lp]. }
  unfold window_step, window_stops. split.
  - intros H. apply peel in H; [|calm_prim]. destruct H as (w & b1 & E1 & H). apply u8_iff in E1; [|exact B]. destruct E1 as (E1 & ->).
    apply peel in H; [|calm_prim]. destruct H as (n & b1 & E2 & H). apply u8_iff in E2; [|exact B]. destruct E2 as (E2 & ->).
    apply peel in H; [|calm_prim]. destruct H as (bm & b1 & E3 & H). apply bytes_iff in E3. destruct E3 as (L3 & -> & ->).
    unfold lift in H. cbn [fst] in H. replace (q + 1 + 1)%nat with (q + 2)%nat in * by lia.
    pose proof (Forall_nth_error _ _ _ _ B E1) as W. pose proof (Forall_nth_error _ _ _ _ B E2) as LN. cbn beta in W, LN.
    apply X in H; [|exact W|rewrite slice_length by exact L3; lia]. destruct H as (-> & O & H). split; [reflexivity|]. split; [exact O|].
    exists (w, slice d (q + 2) (N.to_nat n)), (q + 2 + N.to_nat n)%nat. split; [|exact H].
    unfold window_at. cbn [fst snd]. rewrite slice_length by exact L3. rewrite N2Nat.id. auto.
  - intros (-> & O & [w bm] & e & WA & H). pose proof WA as (E1 & E2 & L3 & S & ->). cbn [fst snd] in *.
    pose proof (Forall_nth_error _ _ _ _ B E1) as W. pose proof (Forall_nth_error _ _ _ _ B E2) as LN. cbn beta in W, LN.
    apply fails_bind. right. exists w, (mkbuf d (q + 1)). split; [apply u8_iff; auto|]. apply fails_bind. right. exists (N.of_nat (length bm)), (mkbuf d (q + 2)).
    split; [apply u8_iff; [exact B|]; split; [exact E2|f_equal; lia]|]. apply fails_bind. right. exists bm, (mkbuf d (q + 2 + length bm)). rewrite Nat2N.id. split; [apply bytes_iff; auto|].
    unfold lift. cbn [fst]. apply X; [exact W|lia|]. auto.
Qed.
Lemma types_stops c d : byte_list d -> stops d (types_try_from c) (fun f => bitmap_stops f c d).
Proof.
  intros B. unfold types_try_from. eapply stops_ext; [|apply (loop_stops d (window_step c) (win_entry c d) (fun f => window_stops f c d))].
  - intros f q. unfold window_stops, bitmap_stops. split.
    + intros (xs & p & C & Lp & -> & O & x & e & WA & H). split; [reflexivity|]. split; [exact O|]. apply entries_split in C. destruct C as (C & F).
      exists (map fst xs), p, x, e. split; [exact C|]. split; [exact WA|]. split; [|exact H]. intros n (y & k & Iy & Bk & ->).
      apply in_map_iff in Iy. destruct Iy as ((y' & ts) & <- & Iy). rewrite Forall_forall in F. specialize (F _ Iy). cbn [fst snd] in *.
      apply forall2_in in F. destruct F as (F & _). apply bit_set_positions in Bk. destruct (F _ Bk) as (t & _ & M). eauto.
    + intros (-> & O & ws & p & x & e & C & WA & ALL & H).
      assert (X : forall w, In w ws -> exists l, Forall2 (fun p t => bit_means c (256 * fst w + p) t) (positions 0 (snd w)) l).
      { intros w Iw. assert (K : forall p, In p (positions 0 (snd w)) -> exists t, bit_means c (256 * fst w + p) t).
        { intros k Ik. apply ALL. exists w, k. split; [exact Iw|]. split; [apply bit_set_positions, Ik|reflexivity]. }
        induction (positions 0 (snd w)) as [|k ks IH]; [exists []; constructor|]. destruct (K k (or_introl eq_refl)) as (t & M).
        destruct IH as (l & Fl); [intros; apply K; right; assumption|]. exists (t :: l). constructor; assumption. }
      assert (Y : exists xs, map fst xs = ws /\ Forall (fun x => Forall2 (fun p t => bit_means c (256 * fst (fst x) + p) t) (positions 0 (snd (fst x))) (snd x)) xs).
      { clear - X. induction ws as [|w ws IH]; [exists []; auto|]. destruct (X w (or_introl eq_refl)) as (l & Fl). destruct IH as (xs & <- & F); [intros; apply X; right; assumption|].
        exists ((w, l) :: xs). split; [reflexivity|]. constructor; assumption. }
      destruct Y as (xs & <- & F). exists xs, p. split; [apply entries_split; auto|]. split; [apply window_at_end in WA; lia|]. split; [reflexivity|]. split; [exact O|]. exists x, e. auto.
  - intros a q v b _ E. apply window_step_iff in E; [|exact B]. destruct E as (x & e & W & Le & _ & ->). exists x, e. auto.
  - intros a q x e W Le. eexists. apply window_step_iff; [exact B|]. exists x, e. split; [exact W|]. split; [exact Le|]. split; reflexivity.
  - intros a. apply window_step_stops, B.
Qed.

(** ** SVCB parameters *)
Lemma overruns_step {X} (el : nat -> X -> nat -> Prop) q len : 0 < len -> (forall x e, el q x e -> (q < e)%nat) ->
  overruns el q len <-> exists x e, el q x e /\ ((q + N.to_nat len < e)%nat \/ (e <= q + N.to_nat len)%nat /\ overruns el e (len - N.of_nat (e - q))).
Proof.
  intros Lz G. unfold overruns. split.
  - intros (xs & m & x & e & C & Lm & E & Le). inversion C as [|? y k ys ? Ey Lk C']; subst.
    + exists x, e. auto.
    + pose proof (consecutive_start _ _ _ _ C'). exists y, k. split; [exact Ey|]. right. split; [lia|]. exists ys, m, x, e. split; [exact C'|]. split; [lia|]. split; [exact E|lia].
  - intros (x & e & E & [H|(H & xs & m & y & e' & C & Lm & Ey & Le)]).
    + exists [], q, x, e. split; [constructor|]. split; [lia|]. auto.
    + pose proof (G _ _ E). exists (x :: xs), m, y, e'. split; [econstructor; [exact E|lia|exact C]|]. split; [lia|]. split; [exact Ey|lia].
Qed.
Lemma overruns_zero {X} (el : nat -> X -> nat -> Prop) q : ~ overruns el q 0.
Proof. intros (xs & m & x & e & C & Lm & _). apply consecutive_start in C. cbn [N.to_nat] in Lm. lia. Qed.
Lemma mandatory_stops f c d : ovf c = true -> byte_list d -> forall fuel len acc q, (q <= length d)%nat -> (length d - q < fuel)%nat ->
  fails f (fst (mandatory_loop c fuel len acc (mkbuf d q))) <-> f = Panics /\ overruns (key_at d) q len.
Proof.
  intros O B. induction fuel as [|n IH]; intros len acc q L F; [lia|]. cbn [mandatory_loop]. destruct (N.eqb_spec len 0) as [->|Z].
  { split; [intros H; destruct f; discriminate|]. intros (_ & H). destruct (overruns_zero _ _ H). }
  rewrite overruns_step; [|lia|intros x e (_ & _ & ->); lia].
  assert (KI : forall k b, extract_u16_as pkey_try_from (mkbuf d q) = (Ok k, b) <-> key_at d q k (q + 2) /\ b = mkbuf d (q + 2)).
  { intros k b. rewrite u16_as_iff by exact B. unfold key_at. split.
    - intros (v & U & K & ->). apply pkey_iff in K. destruct K as (<- & D). auto.
    - intros ((U & D & _) & ->). exists (pkey_code k). split; [exact U|]. split; [apply pkey_iff; auto|reflexivity]. }
  split.
  - intros H. apply peel in H; [|calm_prim]. destruct H as (k & b & E & H). apply KI in E. destruct E as (K & ->). pose proof (u16_at_end _ _ _ (proj1 K)) as LU.
    apply fails_bind in H. destruct H as [H|(l & b' & E & H)].
    + unfold lift in H. cbn [fst] in H. apply usub_fails in H. destruct H as (-> & _ & H). split; [reflexivity|]. exists k, (q + 2)%nat. split; [exact K|left; lia].
    + apply lift_ok in E. destruct E as (U & ->). unfold usub in U. rewrite O in U. destruct (N.leb_spec 2 len) as [L2|]; [|discriminate]. apply Ok_inj in U. subst l.
      apply IH in H; [|lia|lia]. destruct H as (-> & H). split; [reflexivity|]. exists k, (q + 2)%nat. split; [exact K|right]. split; [lia|].
      replace (len - N.of_nat (q + 2 - q)) with (len - 2) by lia. exact H.
  - intros (-> & k & e & K & H). assert (e = (q + 2)%nat) as -> by apply K. pose proof (u16_at_end _ _ _ (proj1 K)) as LU.
    apply fails_bind. right. exists k, (mkbuf d (q + 2)). split; [apply KI; auto|]. apply fails_bind.
    destruct H as [H|(Le & H)]; [left|right].
    + unfold lift, usub. cbn [fst]. rewrite O. destruct (N.leb_spec 2 len); [lia|reflexivity].
    + exists (len - 2), (mkbuf d (q + 2)). split; [unfold lift, usub; destruct (N.leb_spec 2 len); [reflexivity|lia]|].
      apply IH; [lia|lia|]. split; [reflexivity|]. replace (len - 2) with (len - N.of_nat (q + 2 - q)) by lia. exact H.
Qed.
Lemma alpn_stops f c d : ovf c = true -> byte_list d -> forall fuel len acc q, (q <= length d)%nat -> (length d - q < fuel)%nat ->
  fails f (fst (alpn_loop c fuel len acc (mkbuf d q))) <-> f = Panics /\ overruns (string_at d) q len.
Proof.
  intros O B. induction fuel as [|n IH]; intros len acc q L F; [lia|]. cbn [alpn_loop]. destruct (N.eqb_spec len 0) as [->|Z].
  { split; [intros H; destruct f; discriminate|]. intros (_ & H). destruct (overruns_zero _ _ H). }
  rewrite overruns_step; [|lia|intros x e H; apply string_at_end in H; lia].
  split.
  - intros H. apply peel in H; [|calm_prim]. destruct H as (x & b & E1 & H). apply peel in H; [|calm_prim]. destruct H as (s & b2 & E2 & H).
    assert (HS : extract_character_string (mkbuf d q) = (Ok s, b2)) by (apply bind_iff; eauto). apply char_string_iff in HS; [|exact B]. destruct HS as (e & S & ->).
    pose proof (string_at_end _ _ _ _ S) as LS. apply u8_iff in E1; [|exact B]. destruct E1 as (E1 & ->).
    assert (x = N.of_nat (length s)) as -> by (destruct S as (Os & _); unfold octet_at in Os; congruence).
    assert (Es : e = (q + 1 + length s)%nat) by apply S.
    apply fails_bind in H. destruct H as [H|(l & b' & E & H)].
    + unfold lift in H. cbn [fst] in H. apply usub_fails in H. destruct H as (-> & _ & H). split; [reflexivity|]. exists s, e. split; [exact S|left; lia].
    + apply lift_ok in E. destruct E as (U & ->). unfold usub in U. rewrite O in U. destruct (N.leb_spec (N.of_nat (length s) + 1) len) as [L2|]; [|discriminate]. apply Ok_inj in U. subst l.
      apply IH in H; [|lia|lia]. destruct H as (-> & H). split; [reflexivity|]. exists s, e. split; [exact S|right]. split; [lia|].
      replace (len - N.of_nat (e - q)) with (len - (N.of_nat (length s) + 1)) by lia. exact H.
  - intros (-> & s & e & S & H). pose proof (string_at_end _ _ _ _ S) as LS. assert (Es : e = (q + 1 + length s)%nat) by apply S.
    assert (HS : extract_character_string (mkbuf d q) = (Ok s, mkbuf d e)) by (apply char_string_iff; eauto). apply bind_iff in HS. destruct HS as (x & b1 & E1 & E2).
    apply fails_bind. right. exists x, b1. split; [exact E1|]. apply fails_bind. right. exists s, (mkbuf d e). split; [exact E2|].
    apply u8_iff in E1; [|exact B]. destruct E1 as (E1 & ->).
    assert (x = N.of_nat (length s)) as -> by (destruct S as (Os & _); unfold octet_at in Os; congruence).
    apply fails_bind. destruct H as [H|(Le & H)]; [left|right].
    + unfold lift, usub. cbn [fst]. rewrite O. destruct (N.leb_spec (N.of_nat (length s) + 1) len); [lia|reflexivity].
    + exists (len - (N.of_nat (length s) + 1)), (mkbuf d e). split; [unfold lift, usub; destruct (N.leb_spec (N.of_nat (length s) + 1) len); [reflexivity|lia]|].
      apply IH; [lia|lia|]. split; [reflexivity|]. replace (len - (N.of_nat (length s) + 1)) with (len - N.of_nat (e - q)) by lia. exact H.
Qed.
Definition param_stops (f : failure) (c : cfg) (d : bytes) (k : nat) : Prop := f = Panics /\ ovf c = true /\ exists len, u16_at d (k + 2) len /\
  (u16_at d k 0 /\ overruns (key_at d) (k + 4) len \/ u16_at d k 1 /\ overruns (string_at d) (k + 4) len).
Lemma param_stops_iff c d : byte_list d -> stops d (param_try_from c) (fun f => param_stops f c d).
Proof.
  intros B f q L. split.
  - intros H. pose proof (param_fails f c d q B L H) as (-> & O & _). split; [reflexivity|]. split; [exact O|]. unfold param_try_from in H.
    apply peel in H; [|calm_prim]. destruct H as (k & b1 & E1 & H). apply (u16_as_got _ _ _ _ _ B) in E1. destruct E1 as (n & U1 & K & ->).
    apply peel in H; [|calm_prim]. destruct H as (len & b1 & E1 & H). apply (u16_got _ _ _ _ B) in E1. destruct E1 as (U2 & ->).
    pose proof (u16_at_end _ _ _ U2) as L2. replace (q + 2 + 2)%nat with (q + 4)%nat in * by lia. exists len. split; [exact U2|].
    destruct k; try (exfalso; revert H; match goal with |- fails _ (fst (?p ?b)) -> _ => apply (fun C : calm p => C Panics b) end; calm_all; fail).
    + left. apply pkey_zero in K. subst n. split; [exact U1|]. apply fails_bind in H. destruct H as [H|(a & b' & _ & H)]; [|discriminate].
      apply mandatory_stops in H; [apply H|exact O|exact B|exact L2|unfold remaining; cbn [data pos]; lia].
    + right. apply pkey_one in K. subst n. split; [exact U1|]. apply fails_bind in H. destruct H as [H|(a & b' & _ & H)]; [|discriminate].
      apply alpn_stops in H; [apply H|exact O|exact B|exact L2|unfold remaining; cbn [data pos]; lia].
  - intros (-> & O & len & U2 & H). pose proof (u16_at_end _ _ _ U2) as L2. unfold param_try_from.
    destruct H as [(U1 & H)|(U1 & H)]; (apply fails_bind; right; eexists; exists (mkbuf d (q + 2)); split; [apply u16_as_iff; [exact B|]; eexists; split; [exact U1|]; split; reflexivity|]);
      (apply fails_bind; right; exists len, (mkbuf d (q + 2 + 2)); split; [apply u16_iff; auto|]); cbv iota beta; replace (q + 2 + 2)%nat with (q + 4)%nat in * by lia;
      apply fails_bind; left.
    + apply mandatory_stops; [exact O|exact B|lia|unfold remaining; cbn [data pos]; lia|auto].
    + apply alpn_stops; [exact O|exact B|lia|unfold remaining; cbn [data pos]; lia|auto].
Qed.
Lemma param_step_stops c d acc : byte_list d -> stops d (param_step c acc) (fun f => param_stops f c d).
Proof.
  intros B f q L. rewrite <- (param_stops_iff c d B f q L). unfold param_step, sub_buffer, remaining. cbn [data pos].
  destruct (Nat.ltb_spec (length d) (q + (length d - q))); [lia|].
  replace (q + (length d - q))%nat with (length d) by lia. rewrite firstn_all.
  destruct (param_try_from c (mkbuf d q)) as [[p|e| |] sb]; cbn [fst]; try (destruct f; split; intros H'; first [discriminate H'|reflexivity]; fail).
  split; [|intros H'; destruct f; discriminate]. intros H'. apply fails_bind in H'. destruct H' as [H'|(a & b' & _ & H')]; [|destruct f; discriminate].
  unfold set_position in H'. destruct (_ <? _)%nat; destruct f; discriminate.
Qed.
Lemma params_stops c d : byte_list d -> allocatable d -> stops d (loop_remaining (param_step c) []) (fun f => params_stop f c d).
Proof.
  intros B A. eapply stops_ext; [|apply (loop_stops d (param_step c) (param_at d) (fun f => param_stops f c d))].
  - intros f q. unfold param_stops, params_stop. split.
    + intros (xs & p & C & _ & -> & O & len & H). split; [reflexivity|]. split; [exact O|]. exists xs, p, len. auto.
    + intros (-> & O & xs & p & len & C & U & H). exists xs, p. split; [exact C|]. split; [apply u16_at_end in U; lia|]. split; [reflexivity|]. split; [exact O|]. exists len. auto.
  - intros a q v b L E. apply param_step_iff in E; [|assumption..]. destruct E as (x & e & W & Le & _ & ->). exists x, e. auto.
  - intros a q x e W Le. eexists. apply param_step_iff; [exact B|exact A|lia|]. exists x, e. split; [exact W|]. split; [exact Le|]. split; reflexivity.
  - intros a. apply param_step_stops, B.
Qed.
Lemma names_stops d : byte_list d -> stops d (loop_remaining names_step []) (fun f => names_stop f d).
Proof.
  intros B. eapply stops_ext; [|apply (loop_stops d names_step (name_at d 191) (fun f => bad_name f d))].
  - intros f q. unfold names_stop. reflexivity.
  - intros a q v b L E. unfold names_step in E. apply bind_iff in E. destruct E as (f & b1 & E1 & E2). cbn [ret] in E2. injection E2 as <- <-.
    apply dec_name in E1; [|assumption..]. destruct E1 as (e & N & Le & ->). exists f, e. pose proof (name_at_end _ _ _ _ N). split; [exact N|]. split; [lia|reflexivity].
  - intros a q x e N Le. eexists. unfold names_step. apply bind_iff. exists x, (mkbuf d e). split; [|reflexivity]. apply dec_name; [exact B|lia|]. exists e. split; [exact N|]. split; [lia|reflexivity].
  - intros a. unfold names_step. apply stops_tail; [apply stops_name, B|]. intros n. apply calm_ret.
Qed.

(** ** All types *)
Section Data.
  Context (c : cfg) (d : bytes) (B : byte_list d) (A : allocatable d).
  Local Notation halts t p := (stops d p (fun f => data_stops f c d t)).
  (* a number or the like in front *)
  Ltac front := apply stops_behind; [pieces_of B|calm_prim|cbv beta; intros; inside|intros ?].
  Ltac last_name := apply stops_here, stops_tail; [apply stops_name, B|intros ?; calm_all].
  Lemma stops_none {X} (p : P X) : calm p -> stops d p (fun _ _ => False).
  Proof. apply stops_calm. Qed.
  Lemma stops_mx : halts MX mx_try_from.
  Proof. unfold mx_try_from. cbn [data_stops]. front. last_name. Qed.
  Lemma stops_srv : halts SRV srv_try_from.
  Proof. unfold srv_try_from. cbn [data_stops]. do 3 front. last_name. Qed.
  Lemma stops_naptr : halts NAPTR naptr_try_from.
  Proof. unfold naptr_try_from. cbn [data_stops]. do 2 front. apply stops_behind; [pieces_of B|calm_prim|intros; inside|intros ?]. do 2 front. last_name. Qed.
  Lemma stops_rrsig : halts RRSIG (rrsig_try_from c).
  Proof. unfold rrsig_try_from. cbn [data_stops]. do 7 front. last_name. Qed.
  (* a name, then something *)
  Lemma stops_first {X} (k : fqdn -> P X) (bad : failure -> nat -> Prop) : (forall a, stops d (k a) bad) ->
    stops d (bind extract_fqdn k) (fun f p => bad_name f d p \/ behind [a_name d] (bad f) p).
  Proof.
    intros S. eapply stops_ext; [|eapply (stops_bind d extract_fqdn k (name d) (fun f => bad_name f d) (fun _ => bad)); [apply dec_name, B|apply stops_name, B|exact S]].
    intros f q. unfold behind, a_name, some. cbn [laid]. split; (intros [H|H]; [left; exact H|right]).
    - destruct H as (a & m & N & _ & H). exists m. split; [exists m; split; [exists a; exact N|reflexivity]|exact H].
    - destruct H as (m & (m' & (a & N) & <-) & H). exists a, m'. split; [exact N|]. split; [inside|exact H].
  Qed.
  Lemma stops_soa : halts SOA soa_try_from.
  Proof. unfold soa_try_from. cbn [data_stops]. apply stops_first. intros a. apply stops_tail; [apply stops_name, B|intros ?; calm_all]. Qed.
  Lemma stops_minfo : halts MINFO minfo_try_from.
  Proof. unfold minfo_try_from. cbn [data_stops]. apply stops_first. intros a. apply stops_tail; [apply stops_name, B|intros ?; calm_all]. Qed.
  Lemma stops_nsec : halts NSEC (nsec_try_from c).
  Proof. unfold nsec_try_from. cbn [data_stops]. apply stops_first. intros a. apply stops_tail; [apply types_stops, B|intros ?; calm_all]. Qed.
  Lemma stops_tkey : halts TKEY tkey_try_from.
  Proof. unfold tkey_try_from. cbn [data_stops]. apply stops_tail; [apply stops_name, B|intros ?; calm_all]. Qed.
  Lemma stops_tsig : halts TSIG tsig_try_from.
  Proof. unfold tsig_try_from. cbn [data_stops]. apply stops_tail; [apply stops_name, B|intros ?; calm_all]. Qed.
  Lemma stops_csync : halts CSYNC (csync_try_from c).
  Proof.
    unfold csync_try_from. cbn [data_stops].
    eapply stops_ext; [|front; apply stops_behind; [apply dec_csync_flags, B|calm_prim|intros ? ? ? (? & _); inside|intros ?; apply stops_here, stops_tail; [apply types_stops, B|intros ?; calm_all]]].
    intros f q. unfold behind, num_such, some. cbn [laid].
    split; intros (m & (m1 & H1 & m2 & H2 & <-) & H); exists m2; (split; [|exact H]); exists m1; (split; [exact H1|]); exists m2; (split; [|reflexivity]); destruct H2 as (a & ? & ?); eauto.
  Qed.
  Lemma stops_svcb : halts SVCB (svcb_try_from c).
  Proof.
    unfold svcb_try_from. cbn [data_stops].
    eapply stops_ext; [|apply (stops_behind d extract_u16 _ (num d 2) [] (fun f p => bad_name f d p \/ behind [a_name d] (params_stop f c d) p)); [apply dec_u16, B|calm_prim|intros; inside|
      intros ?; apply stops_here, stops_first; intros ?; apply stops_tail; [apply params_stops; assumption|intros ?; calm_all]]].
    intros f q. unfold behind, number. cbn [laid]. split.
    - intros (m & (m1 & H1 & <-) & [H|(m2 & H2 & H)]); [left; exists m1; eauto|right]. exists m2. split; [|exact H]. exists m1. auto.
    - intros [(m & (m1 & H1 & <-) & H)|(m & (m1 & H1 & H2) & H)]; (exists m1; split; [exists m1; auto|]); [left; exact H|right]. exists m. auto.
  Qed.
  Lemma stops_ipseckey : halts IPSECKEY ipseckey_try_from.
  Proof.
    unfold ipseckey_try_from. cbn [data_stops].
    eapply stops_ext; [|apply (stops_behind d extract_u8 _ (num d 1) [] (fun f => behind [num d 1 3; coded d 1 alg_code] (bad_name f d))); [apply dec_u8, B|calm_prim|intros; inside|intros prec; apply stops_here]].
    { intros f q. unfold behind. cbn [laid]. split.
      - intros (m & (m1 & H1 & <-) & m2 & H2 & H). exists m2. split; [|exact H]. exists m1. auto.
      - intros (m & (m1 & H1 & H2) & H). exists m1. split; [exists m1; auto|]. exists m. auto. }
    eapply stops_ext; [|apply (stops_bind d extract_u8 _ (num d 1) (fun _ _ => False) (fun gt f q => gt = 3 /\ behind [coded d 1 alg_code] (bad_name f d) q)); [apply dec_u8, B|apply stops_calm; calm_prim|intros gt]].
    { intros f q. unfold behind. cbn [laid]. split.
      - intros [[]|(gt & m1 & H1 & _ & -> & m2 & H2 & H)]. exists m2. split; [|exact H]. exists m1. auto.
      - intros (m & (m1 & H1 & H2) & H). right. exists 3, m1. split; [exact H1|]. split; [inside|]. split; [reflexivity|]. exists m. auto. }
    assert (C : gt = 3 \/ gt <> 3) by lia. destruct C as [->|C].
    - eapply stops_ext; [|front; apply stops_here, stops_tail; [apply stops_tail; [apply stops_name, B|intros ?; calm_all]|intros ?; calm_all]]. intros f q. unfold coded. tauto.
    - eapply stops_ext; [|apply stops_calm]. { intros f q. tauto. }
      apply calm_bind; [calm_prim|intros al]. apply calm_bind; [|intros g; calm_all]. destruct gt as [|[[]|[]|]]; try lia; calm_all.
  Qed.
  Lemma stops_hip : halts HIP hip_try_from.
  Proof.
    unfold hip_try_from. cbn [data_stops]. intros f q L.
    assert (SV : forall a hit pk q, (q <= length d)%nat -> fails f (fst ((fun b => if (remaining b =? 0)%nat then (Ok (mkHip a hit pk None), b)
      else (ns <- loop_remaining names_step [] ;; ret (mkHip a hit pk (Some ns))) b) (mkbuf d q))) <-> names_stop f d q).
    { intros a hit pk p Lp. unfold remaining. cbn [data pos]. destruct (Nat.eqb_spec (length d - p) 0) as [Z|NZ].
      - split; [intros H; destruct f; discriminate|]. intros (fs & k & C & Lk & _). apply consecutive_start in C. lia.
      - rewrite fails_bind, (names_stops d B f p Lp). split; [intros [H|(x & b & _ & H)]; [exact H|destruct f; discriminate]|auto]. }
    split.
    - intros H. apply peel in H; [|calm_prim]. destruct H as (i & b & E & H). apply dec_u8 in E; [|exact B|exact L]. destruct E as (m1 & H1 & L1 & ->).
      apply peel in H; [|calm_prim]. destruct H as (al & b & E & H). eapply dec_u8_as in E; [|exact B|apply alg_faithful|exact L1]. destruct E as (m2 & H2 & L2 & ->).
      apply peel in H; [|calm_prim]. destruct H as (j & b & E & H). apply dec_u16 in E; [|exact B|exact L2]. destruct E as (m3 & H3 & L3 & ->).
      apply peel in H; [|calm_prim]. destruct H as (hit & b & E & H). apply bytes_iff in E. destruct E as (L4 & -> & ->).
      apply peel in H; [|calm_prim]. destruct H as (pk & b & E & H). apply bytes_iff in E. destruct E as (L5 & -> & ->).
      apply SV in H; [|exact L5]. exists i, j. eexists. split; [|exact H]. cbn [laid]. exists m1. split; [exact H1|]. exists m2. split; [exists al; exact H2|]. exists m3. split; [exact H3|].
      eexists. split; [split; [reflexivity|exact L4]|]. eexists. split; [split; [reflexivity|exact L5]|]. reflexivity.
    - intros (i & j & m & (m1 & H1 & m2 & (al & H2) & m3 & H3 & m4 & (-> & L4) & m5 & (-> & L5) & <-) & H).
      pose proof (num_in _ _ _ _ _ H1) as L1. pose proof (num_in _ _ _ _ _ H2) as L2. pose proof (num_in _ _ _ _ _ H3) as L3.
      apply fails_bind. right. exists i, (mkbuf d m1). split; [apply dec_u8; [exact B|exact L|eauto]|].
      apply fails_bind. right. exists al, (mkbuf d m2). split; [eapply dec_u8_as; [exact B|apply alg_faithful|exact L1|eauto]|].
      apply fails_bind. right. exists j, (mkbuf d m3). split; [apply dec_u16; [exact B|exact L2|eauto]|].
      apply fails_bind. right. eexists. exists (mkbuf d (m3 + N.to_nat i)). split; [apply bytes_iff; eauto|].
      apply fails_bind. right. eexists. exists (mkbuf d (m3 + N.to_nat i + N.to_nat j)). split; [apply bytes_iff; eauto|]. apply SV; assumption.
  Qed.
  Lemma stops_bare {X} (con : fqdn -> X) : stops d (pmap con name_try_from) (fun f => bad_name f d).
  Proof. apply stops_pmap, stops_name, B. Qed.
  Lemma rdata_stops t : stops d (rdata_from c t) (fun f => data_stops f c d t).
  Proof.
    assert (N : forall t', ~ In t' [NS; CNAME; PTR; SOA; MINFO; NSEC; TKEY; TSIG; MX; SVCB; SRV; RRSIG; NAPTR; IPSECKEY; HIP; CSYNC] -> stops d (rdata_from c t') (fun _ _ => False)).
    { intros t' NI f q L. split; [|intros []]. intros H. destruct (nameless_returns c t' d q B L NI) as [(x & E)|(x & E)]; rewrite E in H; destruct f; discriminate. }
    destruct t; try (apply N; cbn [In]; intuition discriminate); cbn [rdata_from]; try apply stops_bare; apply stops_pmap;
      first [apply stops_mx|apply stops_srv|apply stops_naptr|apply stops_rrsig|apply stops_soa|apply stops_minfo|apply stops_nsec|apply stops_tkey|apply stops_tsig|apply stops_csync
            |apply stops_svcb|apply stops_ipseckey|apply stops_hip].
  Qed.
End Data.

(** ** Records and messages *)
Lemma record_stops_iff f c d p : byte_list d -> allocatable d -> record_fails f c d p <-> record_stops f c d p.
Proof.
  intros B A. unfold record_fails, record_stops. split; (intros [H|(nm & k & t & len & e & H1 & H2 & H3 & H4 & E & L & H)]; [left; exact H|right]);
    exists nm, k, t, len, e; repeat (split; [assumption|]).
  all: assert (Le : length (firstn e d) = e) by (rewrite firstn_length; lia).
  all: assert (A' : allocatable (firstn e d)) by (unfold allocatable in *; lia).
  all: apply (rdata_stops c (firstn e d) (byte_list_firstn e d B) A' t f (k + 10)%nat); [lia|exact H].
Qed.
Lemma section_fails_ext {X} (en en' : nat -> X -> nat -> Prop) (bad bad' : nat -> Prop) n p :
  (forall q x e, en q x e <-> en' q x e) -> (forall q, bad q <-> bad' q) -> section_fails en bad n p <-> section_fails en' bad' n p.
Proof.
  intros HE HB. unfold section_fails. split; intros (xs & m & L & C & H); exists xs, m; (split; [exact L|]); (split; [|apply HB, H]);
    (eapply consecutive_mono; [|exact C]); intros; apply HE; assumption.
Qed.
Lemma section_reads_ext {X} (en en' : nat -> X -> nat -> Prop) n p e : (forall q x e, en q x e <-> en' q x e) -> section_reads en n p e <-> section_reads en' n p e.
Proof.
  intros HE. unfold section_reads. split; intros (xs & L & C); exists xs; (split; [exact L|]); (eapply consecutive_mono; [|exact C]); intros; apply HE; assumption.
Qed.
Lemma message_stops_iff f c d : byte_list d -> allocatable d -> fails f (packet_try_from c d) <-> message_stops f c d.
Proof.
  intros B A. rewrite (packet_fails_iff f c d B). unfold packet_fails, message_stops.
  assert (X : forall n p, section_fails (record_at c d) (record_fails f c d) n p <-> section_fails (record_on_wire c d) (record_stops f c d) n p).
  { intros n p. apply section_fails_ext; [intros; apply record_wire; assumption|intros; apply record_stops_iff; assumption]. }
  assert (Y : forall n p e, section_reads (record_at c d) n p e <-> section_reads (record_on_wire c d) n p e).
  { intros n p e. apply section_reads_ext. intros; apply record_wire; assumption. }
  split; intros (L & H); (split; [exact L|]).
  - destruct H as [H|(e1 & Q & H)]; [left; exact H|right]. exists e1. split; [exact Q|]. destruct H as [H|(e2 & R & H)]; [left; apply X, H|right].
    exists e2. split; [apply Y, R|]. destruct H as [H|(e3 & R' & H)]; [left; apply X, H|right]. exists e3. split; [apply Y, R'|apply X, H].
  - destruct H as [H|(e1 & Q & H)]; [left; exact H|right]. exists e1. split; [exact Q|]. destruct H as [H|(e2 & R & H)]; [left; apply X, H|right].
    exists e2. split; [apply Y, R|]. destruct H as [H|(e3 & R' & H)]; [left; apply X, H|right]. exists e3. split; [apply Y, R'|apply X, H].
Qed.
Lemma message_returns_iff c d : byte_list d -> allocatable d ->
  ((exists p, packet_try_from c d = Ok p) \/ (exists e, packet_try_from c d = Err e) <-> ~ message_stops Panics c d /\ ~ message_stops Loops c d).
Proof.
  intros B A. rewrite <- !message_stops_iff by assumption. cbn [fails]. destruct (packet_try_from c d); split; intros H; try (split; discriminate); eauto.
  - destruct H as [[? H]|[? H]]; discriminate.
  - destruct H as [H _]. destruct (H eq_refl).
  - destruct H as [[? H]|[? H]]; discriminate.
  - destruct H as [_ H]. destruct (H eq_refl).
Qed.
