(** * Facts about record data changed in place. *)
From Coq Require Import Lia ZifyBool ZifyNat ZifyN.
From Verif Require Import Base Buffer Fqdn Header Types RDataBasic Bitmap Svcb RDataSec RData Packet BaseFacts BufferFacts RecordSpec PatchSpec PatchFacts RewriteSpec.

Definition span (a n q : nat) : Prop := (a <= q < a + n)%nat.
(** A run that goes on if reading the new data does. *)
Definition yields {A B} (q : res B * buf) (o : res A) (f : A -> B) (e : buf) : Prop :=
  match o with Ok x => q = (Ok (f x), e) | _ => fst q = outcome o f end.
Lemma yields_fst {A B} (q : res B * buf) (o : res A) f e : yields q o f e -> fst q = outcome o f.
Proof. destruct o; cbn [yields outcome]; [intros ->; reflexivity|auto..]. Qed.
Lemma yields_bind {A B C} (p : P B) (k : B -> P C) b (o : res A) f e g e2 : yields (p b) o f e -> (forall x, o = Ok x -> k (f x) e = (Ok (g x), e2)) -> yields (bind p k b) o g e2.
Proof.
  unfold yields, bind. destruct o as [x|er| |]; cbn [outcome]; intros Y K.
  - rewrite Y. apply K. reflexivity.
  - destruct (p b) as [[?|?| |] ?]; cbn in Y |- *; congruence.
  - destruct (p b) as [[?|?| |] ?]; cbn in Y |- *; congruence.
  - destruct (p b) as [[?|?| |] ?]; cbn in Y |- *; congruence.
Qed.
Lemma bind_yields {A B C} (p : P B) (k : B -> P C) b y b2 (o : res A) g e2 : p b = (Ok y, b2) -> yields (k y b2) o g e2 -> yields (bind p k b) o g e2.
Proof. unfold bind. intros ->. auto. Qed.
Lemma sub_start b n sb : sub_buffer b n = Ok sb -> sb = mkbuf (firstn (pos b + n) (data b)) (pos b) /\ (pos b + n <= length (data b))%nat.
Proof.
  unfold sub_buffer. destruct (Nat.ltb_spec (length (data b)) (pos b + n)); [discriminate|]. intros E. injection E as <-. split; [reflexivity|lia].
Qed.
Lemma rr_changed c b r b1 : (pos b <= length (data b))%nat -> rr_try_from c b = (Ok r, b1) -> exists a n, (pos b + 2 <= a)%nat /\ (a + n)%nat = pos b1 /\ N.of_nat n = unbe (slice (data b) (a - 2) 2) /\
  data_at c (rr_type r) (data b) a n = Ok (rr_data r) /\ data b1 = data b /\ (pos b1 <= length (data b))%nat /\
  forall b', rel (span a n) b b' -> yields (rr_try_from c b') (data_at c (rr_type r) (data b') a n) (rr_with_data r) (mkbuf (data b') (pos b1)).
Proof.
  intros L0 E. set (hd := bind extract_fqdn (fun f => bind (extract_u16_as (rtype_try_from c)) (fun t => bind extract_u16 (fun v => bind (extract_bytes 4) (fun ttlb => ret (f, t, v, ttlb)))))).
  set (mk := fun (x : fqdn * rtype * N * bytes) d => mkRR (fst (fst (fst x))) (snd (fst (fst x))) (snd (rr_class_field_parse c (snd (fst x)))) (fst (rr_class_field_parse c (snd (fst x)))) (unbe (snd x)) d).
  assert (X : forall b, rr_try_from c b = bind hd (fun x => bind extract_u16 (fun len => bind (framed (N.to_nat len) (rdata_from c (snd (fst (fst x))))) (fun d => ret (mk x d)))) b).
  { intros b0. unfold rr_try_from, hd, mk, bind, ret. repeat match goal with |- context [let (_, _) := ?x in _] => lazymatch x with context [let (_, _) := _ in _] => fail | _ => destruct x as [[?|?| |] ?]; cbn [fst snd ques_count ans_count auth_count add_count]; try reflexivity end end. }
  assert (Sh : forall D, swaps D hd).
  { intros D. apply sw_bind; [apply sw_fqdn|]. intros f. apply sw_bind; [apply sw_u16_as|]. intros t. apply sw_bind; [apply sw_u16|]. intros v. apply sw_bind; [apply sw_bytes|]. intros w. apply sw_ret. }
  rewrite X in E. unfold bind at 1 in E. destruct (hd b) as [[x|e| |] b2] eqn:Eh; try discriminate E. destruct (proj1 (Sh (fun _ => False)) b) as (D2 & F2). rewrite Eh in D2, F2. cbn [fst snd] in D2, F2.
  specialize (F2 L0 x eq_refl). unfold bind at 1 in E. unfold extract_u16, bind at 1 in E. unfold extract_bytes in E. rewrite D2 in E. destruct (Nat.ltb_spec (length (data b)) (pos b2 + 2)) as [Lt|Ge]; [discriminate E|]. cbn [ret] in E.
  set (len := unbe (slice (data b) (pos b2) 2)) in E. set (b3 := mkbuf (data b) (pos b2 + 2)) in E.
  assert (Fr : forall d t m (k : rdata -> rr), (pos b2 + 2 + m <= length d)%nat -> yields (bind (framed m (rdata_from c t)) (fun z => ret (k z)) (mkbuf d (pos b2 + 2))) (data_at c t d (pos b2 + 2) m) k (mkbuf d (pos b2 + 2 + m))).
  { intros d t m k L. unfold yields, data_at, bind, framed, sub_buffer. cbn [data pos]. destruct (Nat.ltb_spec (length d) (pos b2 + 2 + m)); [lia|].
    destruct (rdata_from c t (mkbuf (firstn (pos b2 + 2 + m) d) (pos b2 + 2))) as [[z|e| |] ?]; cbn [fst outcome]; try reflexivity.
    unfold bind, advance, ret. cbn [data pos]. destruct (Nat.ltb_spec (length d) (pos b2 + 2 + m)); [lia|]. reflexivity. }
  assert (Ls : (pos b2 + 2 + N.to_nat len <= length (data b))%nat).
  { unfold bind at 1 in E. unfold framed at 1 in E. destruct (sub_buffer b3 (N.to_nat len)) as [sb|e| |] eqn:Es; try discriminate E. apply sub_start in Es. apply Es. }
  pose proof (Fr (data b) (snd (fst (fst x))) (N.to_nat len) (mk x) Ls) as Y. fold b3 in Y.
  assert (Q : exists y, data_at c (snd (fst (fst x))) (data b) (pos b2 + 2) (N.to_nat len) = Ok y /\ r = mk x y /\ b1 = mkbuf (data b) (pos b2 + 2 + N.to_nat len)).
  { destruct (data_at c (snd (fst (fst x))) (data b) (pos b2 + 2) (N.to_nat len)) as [y|e| |]; cbn [yields outcome] in Y; rewrite E in Y; try discriminate Y. injection Y as -> ->. exists y. auto. }
  destruct Q as (y & Dy & -> & ->). clear E Y. exists (pos b2 + 2)%nat, (N.to_nat len). cbn [pos data]. change (rr_type (mk x y)) with (snd (fst (fst x))). change (rr_data (mk x y)) with y.
  split; [lia|]. split; [reflexivity|]. split; [rewrite N2Nat.id; replace (pos b2 + 2 - 2)%nat with (pos b2) by lia; reflexivity|]. split; [exact Dy|]. split; [reflexivity|]. split; [exact Ls|].
  intros b' R. rewrite X. destruct (before _ hd b b' x b2 (Sh _) R Eh) as (H1 & _); [unfold span; intros q Q; lia|]. eapply bind_yields; [exact H1|].
  assert (H2 : extract_u16 (mkbuf (data b') (pos b2)) = (Ok len, mkbuf (data b') (pos b2 + 2))).
  { destruct R as (S & T & _ & _). unfold extract_u16, bind, extract_bytes, ret. cbn [data pos]. rewrite (proj1 T). destruct (Nat.ltb_spec (length (data b)) (pos b2 + 2)); [lia|].
    rewrite (slice_twin (span (pos b2 + 2) (N.to_nat len)) (data b) (data b')); [reflexivity|exact T|]. unfold span. intros i I. lia. }
  eapply bind_yields; [exact H2|]. apply (Fr (data b') (snd (fst (fst x))) (N.to_nat len) (mk x)). destruct R as (_ & T & _). rewrite (proj1 T). exact Ls.
Qed.
Lemma repeat_changed c k : forall b rs b1, (pos b <= length (data b))%nat -> repeatP k (rr_try_from c) b = (Ok rs, b1) -> forall i r, nth_error rs i = Some r ->
  exists a n, (pos b + 2 <= a)%nat /\ (a + n <= pos b1)%nat /\ N.of_nat n = unbe (slice (data b) (a - 2) 2) /\ data_at c (rr_type r) (data b) a n = Ok (rr_data r) /\
  forall b', rel (span a n) b b' -> yields (repeatP k (rr_try_from c) b') (data_at c (rr_type r) (data b') a n) (fun x => at_index i (fun r => rr_with_data r x) rs) (mkbuf (data b') (pos b1)).
Proof.
  induction k as [|k IH]; intros b rs b1 L E i r N; [injection E as <- <-; destruct i; discriminate N|].
  cbn [repeatP] in E. unfold bind at 1 in E. destruct (rr_try_from c b) as [[x|e| |] b2] eqn:E2; try discriminate E.
  unfold bind at 1 in E. destruct (repeatP k (rr_try_from c) b2) as [[xs|e| |] b3] eqn:E3; try discriminate E. injection E as <- <-.
  destruct (proj1 (sw_rr (fun _ => False) c) b) as (D2 & F2). rewrite E2 in D2, F2. cbn [fst snd] in D2, F2. specialize (F2 L x eq_refl).
  destruct (proj1 (sw_repeat (fun _ => False) _ k (sw_rr _ c)) b2) as (D3 & F3). rewrite E3 in D3, F3. cbn [fst snd] in D3, F3. rewrite D2 in D3, F3. specialize (F3 ltac:(lia) xs eq_refl).
  destruct i as [|i]; cbn [nth_error] in N.
  - injection N as <-. destruct (rr_changed c b x b2 L E2) as (a & n & A1 & A2 & A3 & A4 & _ & _ & A6). exists a, n. split; [exact A1|]. split; [lia|]. split; [exact A3|]. split; [exact A4|]. intros b' R.
    cbn [repeatP]. eapply yields_bind; [exact (A6 b' R)|]. intros y _. cbv beta. unfold bind at 1. destruct R as (S & T & P & Q).
    destruct (after (span a n) (repeatP k (rr_try_from c)) b2 (mkbuf (data b') (pos b2)) xs b3 (sw_repeat _ _ k (sw_rr _ c))) as (-> & _).
    + unfold rel. cbn [data pos]. rewrite D2. repeat split; try apply S; try apply T. lia.
    + exact E3.
    + unfold span. intros q I. lia.
    + reflexivity.
  - destruct (IH b2 xs b3 ltac:(rewrite D2; lia) E3 i r N) as (a & n & A1 & A2 & A3 & A4 & A6). exists a, n. split; [lia|]. split; [lia|]. rewrite D2 in A3, A4. split; [exact A3|]. split; [exact A4|]. intros b' R.
    cbn [repeatP]. destruct (before (span a n) (rr_try_from c) b b' x b2 (sw_rr _ c) R E2) as (H1 & _); [unfold span; intros q Q; lia|]. eapply bind_yields; [exact H1|].
    eapply yields_bind; [apply (A6 (mkbuf (data b') (pos b2)))|intros y _; reflexivity]. destruct R as (S & T & P & Q). unfold rel. cbn [data pos]. rewrite D2. repeat split; try apply S; try apply T. lia.
Qed.
Lemma packet_changed c d p s i r : packet_try_from c d = Ok p -> nth_error (records s p) i = Some r ->
  exists a n, (2 <= a)%nat /\ (a + n <= length d)%nat /\ N.of_nat n = unbe (slice d (a - 2) 2) /\ data_at c (rr_type r) d a n = Ok (rr_data r) /\
  forall d', safe (span a n) d -> twin (span a n) d d' -> packet_try_from c d' = outcome (data_at c (rr_type r) d' a n) (fun x => with_data s i x p).
Proof.
  unfold packet_try_from, buf_from. intros E N. unfold packet_try_from_buf in E. set (b := mkbuf d 0) in E.
  unfold bind at 1 in E. destruct (header_try_from b) as [[h|e| |] b1] eqn:E1; try discriminate E. destruct (proj1 (sw_header (fun _ => False)) b) as (D1 & F1). rewrite E1 in D1, F1. specialize (F1 ltac:(cbn; lia) h eq_refl).
  unfold bind at 1 in E. destruct (repeatP (N.to_nat (ques_count h)) (question_try_from c) b1) as [[qs|e| |] b2] eqn:E2; try discriminate E.
  destruct (proj1 (sw_repeat (fun _ => False) _ (N.to_nat (ques_count h)) (sw_question _ c)) b1) as (D2 & F2). rewrite E2 in D2, F2. cbn [fst snd] in D1, F1, D2, F2. rewrite D1 in D2, F2. specialize (F2 ltac:(lia) qs eq_refl).
  unfold bind at 1 in E. destruct (repeatP (N.to_nat (ans_count h)) (rr_try_from c) b2) as [[an|e| |] b3] eqn:E3; try discriminate E.
  destruct (proj1 (sw_repeat (fun _ => False) _ (N.to_nat (ans_count h)) (sw_rr _ c)) b2) as (D3 & F3). rewrite E3 in D3, F3. cbn [fst snd] in D3, F3. rewrite D2 in D3, F3. specialize (F3 ltac:(lia) an eq_refl).
  unfold bind at 1 in E. destruct (repeatP (N.to_nat (auth_count h)) (rr_try_from c) b3) as [[au|e| |] b4] eqn:E4; try discriminate E.
  destruct (proj1 (sw_repeat (fun _ => False) _ (N.to_nat (auth_count h)) (sw_rr _ c)) b3) as (D4 & F4). rewrite E4 in D4, F4. cbn [fst snd] in D4, F4. rewrite D3 in D4, F4. specialize (F4 ltac:(lia) au eq_refl).
  unfold bind at 1 in E. destruct (repeatP (N.to_nat (add_count h)) (rr_try_from c) b4) as [[ad|e| |] b5] eqn:E5; try discriminate E.
  destruct (proj1 (sw_repeat (fun _ => False) _ (N.to_nat (add_count h)) (sw_rr _ c)) b4) as (D5 & F5). rewrite E5 in D5, F5. cbn [fst snd] in D5, F5. rewrite D4 in D5, F5. specialize (F5 ltac:(lia) ad eq_refl).
  injection E as <-. assert (Rl : forall a n d' q, safe (span a n) d -> twin (span a n) d d' -> (q <= length d)%nat -> rel (span a n) (mkbuf d q) (mkbuf d' q)).
  { intros a n d' q S T L. repeat split; try apply S; try apply T. exact L. }
  change (data b) with d in *. change (pos b) with 0%nat in *. destruct b1 as [d1 p1], b2 as [d2 p2], b3 as [d3 p3], b4 as [d4 p4], b5 as [d5 p5]. cbn [data pos] in *. subst d1 d2 d3 d4 d5.
  assert (Bh : forall a n d', safe (span a n) d -> twin (span a n) d d' -> (p1 <= a)%nat -> header_try_from (mkbuf d' 0) = (Ok h, mkbuf d' p1)).
  { intros a n d' S T L. destruct (before (span a n) _ b (mkbuf d' 0) h (mkbuf d p1) (sw_header _) (Rl a n d' 0%nat S T ltac:(lia)) E1) as (H & _); [unfold span; cbn; intros; lia|exact H]. }
  assert (Bq : forall a n d', safe (span a n) d -> twin (span a n) d d' -> (p2 <= a)%nat -> repeatP (N.to_nat (ques_count h)) (question_try_from c) (mkbuf d' p1) = (Ok qs, mkbuf d' p2)).
  { intros a n d' S T L. destruct (before (span a n) _ (mkbuf d p1) (mkbuf d' p1) qs _ (sw_repeat _ _ _ (sw_question _ c)) (Rl a n d' p1 S T ltac:(lia)) E2) as (H & _); [unfold span; cbn; intros; lia|exact H]. }
  assert (Br : forall k q rs q' a n d', safe (span a n) d -> twin (span a n) d d' -> (q <= length d)%nat -> repeatP k (rr_try_from c) (mkbuf d q) = (Ok rs, mkbuf d q') -> (q' <= a \/ a + n <= q)%nat -> repeatP k (rr_try_from c) (mkbuf d' q) = (Ok rs, mkbuf d' q')).
  { intros k q rs q' a n d' S T L E L'. destruct (before (span a n) _ (mkbuf d q) (mkbuf d' q) rs _ (sw_repeat _ _ _ (sw_rr _ c)) (Rl a n d' q S T L) E) as (H & _); [unfold span; cbn; intros; lia|exact H]. }
  destruct s; cbn [records p_answers p_authorities p_additionals] in N.
  - destruct (repeat_changed c (N.to_nat (ans_count h)) (mkbuf d p2) an (mkbuf d p3) ltac:(cbn [data pos]; lia) E3 i r N) as (a & n & A1 & A2 & A3 & A4 & A5). cbn [data pos] in *. exists a, n. split; [lia|]. split; [lia|]. split; [exact A3|]. split; [exact A4|]. intros d' S T.
    unfold packet_try_from_buf. eapply (yields_fst _ _ _ (mkbuf d' p5)). eapply bind_yields; [apply (Bh a n d' S T); lia|]. eapply bind_yields; [apply (Bq a n d' S T); lia|].
    eapply yields_bind; [apply (A5 (mkbuf d' p2)), (Rl a n d' p2 S T); lia|]. intros x _. cbn [data]. unfold bind at 1. rewrite (Br _ p3 _ _ a n d' S T ltac:(lia) E4) by lia. unfold bind at 1. rewrite (Br _ p4 _ _ a n d' S T ltac:(lia) E5) by lia. reflexivity.
  - destruct (repeat_changed c (N.to_nat (auth_count h)) (mkbuf d p3) au (mkbuf d p4) ltac:(cbn [data pos]; lia) E4 i r N) as (a & n & A1 & A2 & A3 & A4 & A5). cbn [data pos] in *. exists a, n. split; [lia|]. split; [lia|]. split; [exact A3|]. split; [exact A4|]. intros d' S T.
    unfold packet_try_from_buf. eapply (yields_fst _ _ _ (mkbuf d' p5)). eapply bind_yields; [apply (Bh a n d' S T); lia|]. eapply bind_yields; [apply (Bq a n d' S T); lia|]. eapply bind_yields; [apply (Br _ p2 _ _ a n d' S T ltac:(lia) E3); lia|].
    eapply yields_bind; [apply (A5 (mkbuf d' p3)), (Rl a n d' p3 S T); lia|]. intros x _. cbn [data]. unfold bind at 1. rewrite (Br _ p4 _ _ a n d' S T ltac:(lia) E5) by lia. reflexivity.
  - destruct (repeat_changed c (N.to_nat (add_count h)) (mkbuf d p4) ad (mkbuf d p5) ltac:(cbn [data pos]; lia) E5 i r N) as (a & n & A1 & A2 & A3 & A4 & A5). cbn [data pos] in *. exists a, n. split; [lia|]. split; [lia|]. split; [exact A3|]. split; [exact A4|]. intros d' S T.
    unfold packet_try_from_buf. eapply (yields_fst _ _ _ (mkbuf d' p5)). eapply bind_yields; [apply (Bh a n d' S T); lia|]. eapply bind_yields; [apply (Bq a n d' S T); lia|]. eapply bind_yields; [apply (Br _ p2 _ _ a n d' S T ltac:(lia) E3); lia|].
    eapply bind_yields; [apply (Br _ p3 _ _ a n d' S T ltac:(lia) E4); lia|]. eapply yields_bind; [apply (A5 (mkbuf d' p4)), (Rl a n d' p4 S T); lia|]. intros x _. reflexivity.
Qed.
Lemma data_patched c (d : bytes) p s i r : byte_list d -> packet_try_from c d = Ok p -> nth_error (records s p) i = Some r ->
  exists a n, (2 <= a)%nat /\ (a + n <= length d)%nat /\ slice d (a - 2) 2 = be 2 (N.of_nat n) /\ data_at c (rr_type r) d a n = Ok (rr_data r) /\ ((forall q, (a <= q < a + n)%nat -> ~ pointed_at d q) ->
    forall x, length x = n -> packet_try_from c (patch d a x) = outcome (data_at c (rr_type r) (patch d a x) a n) (fun new => with_data s i new p)).
Proof.
  intros B E N. destruct (packet_changed c d p s i r E N) as (a & n & A0 & A & T & Da & H). exists a, n. split; [exact A0|]. split; [exact A|]. split; [|split; [exact Da|]].
  - rewrite T. pose proof (be_unbe (slice d (a - 2) 2)) as U. rewrite slice_length in U by lia. symmetry. apply U. unfold slice. apply byte_list_cut. unfold byte_list in *. rewrite <- (firstn_skipn (a - 2) d) in B. apply Forall_app in B. apply B.
  - intros C x Lx. assert (La : length (firstn a d) = a) by (rewrite firstn_length; lia). apply H.
    + split; [exact B|]. intros q Q Q'. exact (C q Q' Q).
    + unfold patch. rewrite Lx. split; [rewrite !app_length, skipn_length; lia|]. intros q NQ. unfold span in NQ. destruct (lt_dec q a) as [La'|Ga].
      * rewrite nth_error_app1 by lia. apply nth_firstn_lt. exact La'.
      * rewrite nth_error_app2, La by lia. rewrite nth_error_app2 by lia. rewrite nth_skip. f_equal. lia.
Qed.
(** ** Addresses *)
Lemma rr_type_data c d p s i r : packet_try_from c d = Ok p -> nth_error (records s p) i = Some r -> exists a n, data_at c (rr_type r) d a n = Ok (rr_data r).
Proof. intros E N. destruct (packet_changed c d p s i r E N) as (a & n & _ & _ & _ & Da & _). eauto. Qed.
Lemma front_at d a n k v : (a + n <= length d)%nat -> (k <= n)%nat -> slice d a k = v -> extract_bytes k (mkbuf (firstn (a + n) d) a) = (Ok v, mkbuf (firstn (a + n) d) (a + k)).
Proof.
  intros L K <-. unfold extract_bytes. cbn [data pos]. rewrite firstn_length. destruct (Nat.ltb_spec (Nat.min (a + n) (length d)) (a + k)); [lia|]. f_equal. f_equal.
  unfold slice. rewrite skipn_firstn_comm, firstn_firstn. f_equal. lia.
Qed.
Lemma number_at k (mk : N -> rdata) d a n : (a + n <= length d)%nat -> forall y, fst (pmap mk (bs <- extract_bytes k ;; ret (unbe bs)) (mkbuf (firstn (a + n) d) a)) = Ok y -> (k <= n)%nat /\ y = mk (unbe (slice d a k)).
Proof.
  intros L y. unfold pmap, bind, ret. destruct (Nat.leb_spec k n) as [K|K].
  - rewrite (front_at d a n k _ L K eq_refl). cbn [fst]. intros E. injection E as <-. auto.
  - unfold extract_bytes. cbn [data pos]. rewrite firstn_length. destruct (Nat.ltb_spec (Nat.min (a + n) (length d)) (a + k)); [discriminate|lia].
Qed.
Lemma skip_add {X} (d : list X) a b : skipn (a + b) d = skipn b (skipn a d).
Proof. revert d. induction a as [|a IH]; intros d; [reflexivity|]. destruct d; [rewrite !skipn_nil; reflexivity|apply IH]. Qed.
Lemma patch_front d a n x : (a + n <= length d)%nat -> (length x <= n)%nat -> patch d a x = patch d a (x ++ slice d (a + length x) (n - length x)).
Proof.
  intros L K. unfold patch. f_equal. rewrite <- app_assoc. f_equal. rewrite app_length, slice_length by lia. unfold slice.
  rewrite <- (firstn_skipn (n - length x) (skipn (a + length x) d)) at 1. f_equal. replace (a + (length x + (n - length x)))%nat with ((a + length x) + (n - length x))%nat by lia. symmetry. apply skip_add.
Qed.
Lemma patch_slice d a x k : (a + length x <= length d)%nat -> length x = k -> slice (patch d a x) a k = x.
Proof.
  intros L <-. unfold patch. pose proof (slice_exact (firstn a d) x (skipn (a + length x) d)) as X. rewrite firstn_length in X. replace (Nat.min a (length d)) with a in X by lia. exact X.
Qed.
Lemma patch_length d a x : (a + length x <= length d)%nat -> length (patch d a x) = length d.
Proof. intros L. unfold patch. rewrite !app_length, firstn_length, skipn_length. lia. Qed.
Lemma number_patched c d p s i r k (mk : N -> rdata) : byte_list d -> packet_try_from c d = Ok p -> nth_error (records s p) i = Some r ->
  rdata_from c (rr_type r) = pmap mk (bs <- extract_bytes k ;; ret (unbe bs)) ->
  exists a n old, slice d (a - 2) 2 = be 2 (N.of_nat n) /\ rr_data r = mk old /\ slice d a k = be k old /\ ((forall q, (a <= q < a + n)%nat -> ~ pointed_at d q) ->
    forall v, v < 256 ^ N.of_nat k -> packet_try_from c (patch d a (be k v)) = Ok (with_data s i (mk v) p)).
Proof.
  intros B E N F. destruct (data_patched c d p s i r B E N) as (a & n & A0 & L & Ln & Da & H). unfold data_at in Da, H. rewrite F in Da, H. destruct (number_at k mk d a n L _ Da) as [K Y].
  assert (Bs : byte_list (slice d a k)). { unfold slice. apply byte_list_cut. unfold byte_list in *. rewrite <- (firstn_skipn a d) in B. apply Forall_app in B. apply B. }
  exists a, n, (unbe (slice d a k)). split; [exact Ln|]. split; [exact Y|]. split; [pose proof (be_unbe (slice d a k)) as U; rewrite slice_length in U by lia; symmetry; apply U, Bs|].
  intros C v Lv. rewrite (patch_front d a n) by (rewrite ?be_length; lia). rewrite be_length. set (x := be k v ++ slice d (a + k) (n - k)).
  assert (Lx : length x = n) by (unfold x; rewrite app_length, be_length, slice_length by lia; lia).
  rewrite (H C x Lx).
  assert (S1 : slice (patch d a x) a k = be k v).
  { pose proof (patch_slice d a x n ltac:(lia) Lx) as Z. unfold slice in Z |- *. apply (f_equal (firstn k)) in Z. rewrite firstn_firstn, Nat.min_l in Z by exact K. rewrite Z. unfold x. rewrite firstn_app, be_length, Nat.sub_diag, firstn_O, app_nil_r.
    rewrite <- (be_length k v) at 1. apply firstn_all. }
  unfold pmap, bind, ret. rewrite (front_at (patch d a x) a n k (be k v)); [|rewrite patch_length by lia; exact L|exact K|exact S1]. cbn [fst outcome]. rewrite unbe_be by exact Lv. reflexivity.
Qed.
(** ** Writing *)
(** Other data of the same size. *)
Definition fits (c : cfg) (old : rdata) (bs : bytes) (new : rdata) (bs' : bytes) : Prop :=
  rdata_to_bytes c new = Ok bs' /\ length bs' = length bs /\ rdata_byte_size c new = rdata_byte_size c old.
Lemma unnamed c h x m off : rdata_names x = [] -> rdata_to_bytes_compressed c h x m off = let! b := rdata_to_bytes c x in Ok (b, m).
Proof. destruct x; cbn [rdata_names]; intros E; try discriminate E; reflexivity. Qed.
Lemma rr_rewritten c r w bs : rr_to_bytes c r = Ok w -> rdata_to_bytes c (rr_data r) = Ok bs ->
  exists pre, w = pre ++ bs /\ forall new bs', fits c (rr_data r) bs new bs' -> rr_to_bytes c (rr_with_data r new) = Ok (pre ++ bs').
Proof.
  unfold rr_to_bytes. intros E Eb. apply rbind_ok in E. destruct E as (z & E1 & E). apply rbind_ok in E. destruct E as (n & E2 & E). apply rbind_ok in E. destruct E as (d & E3 & E). apply ok_eq in E. subst w.
  assert (d = bs) by congruence. subst d.
  exists (fqdn_to_bytes (rr_name r) ++ be 2 (rtype_code (rr_type r)) ++ be 2 (rr_class_field c r) ++ be 4 (rr_ttl r) ++ be 2 (len16 n)). split; [rewrite <- !app_assoc; reflexivity|].
  intros new bs' (F1 & F2 & F3). assert (X : rr_byte_size c (rr_with_data r new) = rr_byte_size c r) by (unfold rr_byte_size; cbn [rr_with_data rr_data rr_name]; rewrite F3; reflexivity).
  rewrite X, E1. cbn [rbind rr_with_data rr_data]. rewrite F3, E2. cbn [rbind]. rewrite F1. cbn [rbind rr_name rr_type rr_ttl]. rewrite <- !app_assoc. reflexivity.
Qed.
Lemma plain_rewritten c rs : forall i r w bs, concat_res (rr_to_bytes c) rs = Ok w -> nth_error rs i = Some r -> rdata_to_bytes c (rr_data r) = Ok bs ->
  exists pre post, w = pre ++ bs ++ post /\ forall new bs', fits c (rr_data r) bs new bs' -> concat_res (rr_to_bytes c) (at_index i (fun r => rr_with_data r new) rs) = Ok (pre ++ bs' ++ post).
Proof.
  induction rs as [|x rs IH]; intros [|i] r w bs E N Eb; cbn in N; try discriminate N; cbn [concat_res] in E; apply rbind_ok in E; destruct E as (b & E1 & E); apply rbind_ok in E; destruct E as (v & E2 & E); apply ok_eq in E; subst w.
  - injection N as ->. destruct (rr_rewritten c r b bs E1 Eb) as (pre & -> & H). exists pre, v. split; [rewrite <- !app_assoc; reflexivity|].
    intros new bs' F. cbn [at_index concat_res]. rewrite (H new bs' F). cbn [rbind]. rewrite E2. cbn [rbind]. rewrite <- !app_assoc. reflexivity.
  - destruct (IH i r v bs E2 N Eb) as (pre & post & -> & H). exists (b ++ pre), post. split; [rewrite <- !app_assoc; reflexivity|].
    intros new bs' F. cbn [at_index concat_res]. rewrite E1. cbn [rbind]. rewrite (H new bs' F). cbn [rbind]. rewrite <- !app_assoc. reflexivity.
Qed.
Lemma at_index_length {A} i (f : A -> A) l : length (at_index i f l) = length l.
Proof. revert i. induction l as [|x l IH]; intros [|i]; cbn; auto. Qed.
Lemma size_rewritten c i r new rs : nth_error rs i = Some r -> rdata_byte_size c new = rdata_byte_size c (rr_data r) -> sum_res (rr_byte_size c) (at_index i (fun r => rr_with_data r new) rs) = sum_res (rr_byte_size c) rs.
Proof.
  revert i. induction rs as [|x rs IH]; intros [|i] N F; cbn in N; try discriminate N; cbn [at_index sum_res].
  - injection N as ->. assert (X : rr_byte_size c (rr_with_data r new) = rr_byte_size c r) by (unfold rr_byte_size; cbn [rr_with_data rr_data rr_name]; rewrite F; reflexivity). rewrite X. reflexivity.
  - rewrite (IH i N F). reflexivity.
Qed.
Lemma packet_rewritten c p s i r out bs : packet_to_bytes c p = Ok out -> nth_error (records s p) i = Some r -> rdata_to_bytes c (rr_data r) = Ok bs ->
  exists a, slice out a (length bs) = bs /\ forall new bs', fits c (rr_data r) bs new bs' -> packet_to_bytes c (with_data s i new p) = Ok (patch out a bs').
Proof.
  unfold packet_to_bytes. intros E N Eb. apply rbind_ok in E. destruct E as (z & E0 & E). apply rbind_ok in E. destruct E as (wa & E1 & E). apply rbind_ok in E. destruct E as (wn & E2 & E).
  apply rbind_ok in E. destruct E as (wd & E3 & E). apply ok_eq in E. subst out.
  assert (Z : forall new, rdata_byte_size c new = rdata_byte_size c (rr_data r) -> packet_byte_size c (with_data s i new p) = Ok z).
  { intros new F. rewrite <- E0. unfold packet_byte_size. destruct s; cbn [with_data p_answers p_authorities p_additionals p_questions records] in *; rewrite (size_rewritten c i r new _ N F); reflexivity. }
  assert (H : forall new, patched_header (with_data s i new p) = patched_header p).
  { intros new. unfold patched_header. destruct s; cbn [with_data p_header p_answers p_authorities p_additionals p_questions]; rewrite at_index_length; reflexivity. }
  assert (K : exists pre post, patched_header p ++ flat_map (question_to_bytes c) (p_questions p) ++ wa ++ wn ++ wd = pre ++ bs ++ post /\
    forall new bs', fits c (rr_data r) bs new bs' -> (let! a := concat_res (rr_to_bytes c) (p_answers (with_data s i new p)) in
      let! n := concat_res (rr_to_bytes c) (p_authorities (with_data s i new p)) in
      let! d := concat_res (rr_to_bytes c) (p_additionals (with_data s i new p)) in
      Ok (patched_header (with_data s i new p) ++ flat_map (question_to_bytes c) (p_questions (with_data s i new p)) ++ a ++ n ++ d)) = Ok (pre ++ bs' ++ post)).
  { set (hd := patched_header p ++ flat_map (question_to_bytes c) (p_questions p)).
    destruct s; cbn [records] in N; [destruct (plain_rewritten c _ i r _ bs E1 N Eb) as (pre & post & -> & W)|destruct (plain_rewritten c _ i r _ bs E2 N Eb) as (pre & post & -> & W)|destruct (plain_rewritten c _ i r _ bs E3 N Eb) as (pre & post & -> & W)];
      [exists (hd ++ pre), (post ++ wn ++ wd)|exists (hd ++ wa ++ pre), (post ++ wd)|exists (hd ++ wa ++ wn ++ pre), post]; (split; [unfold hd; rewrite <- !app_assoc; reflexivity|]); intros new bs' F; rewrite H; cbn [with_data p_answers p_authorities p_additionals p_questions];
      specialize (W new bs' F); cbv zeta; rewrite ?W, ?E1, ?E2, ?E3; cbn [rbind]; rewrite ?W, ?E1, ?E2, ?E3; cbn [rbind]; rewrite ?W, ?E1, ?E2, ?E3; cbn [rbind]; unfold hd; rewrite <- !app_assoc; reflexivity. }
  destruct K as (pre & post & -> & W). exists (length pre). split; [apply slice_exact|].
  intros new bs' F. rewrite (Z new (proj2 (proj2 F))). cbn [rbind]. rewrite (W new bs' F). f_equal. symmetry. apply patch_mid. apply (proj1 (proj2 F)).
Qed.
Lemma rr_compressed_rewritten c h r m off w m' bs : rr_to_bytes_compressed c h r m off = Ok (w, m') -> rdata_to_bytes c (rr_data r) = Ok bs -> rdata_names (rr_data r) = [] ->
  exists pre, w = pre ++ bs /\ forall new bs', fits c (rr_data r) bs new bs' -> rdata_names new = [] -> rr_to_bytes_compressed c h (rr_with_data r new) m off = Ok (pre ++ bs', m').
Proof.
  unfold rr_to_bytes_compressed. cbv zeta. cbn [rr_with_data rr_name rr_type rr_data rr_ttl]. destruct (fqdn_to_bytes_compressed h (rr_name r) m off) as [nb m1]. intros E Eb U. rewrite unnamed, Eb in E by exact U. cbn [rbind fst snd] in E. apply ok_eq in E. apply pair_equal_spec in E. destruct E as [<- <-].
  exists (nb ++ be 2 (rtype_code (rr_type r)) ++ be 2 (rr_class_field c r) ++ be 4 (rr_ttl r) ++ be 2 (len16 (length bs))). split; [rewrite <- !app_assoc; reflexivity|].
  intros new bs' (F1 & F2 & F3) F4. rewrite unnamed, F1 by exact F4. cbn [rbind fst snd]. rewrite F2. change (rr_class_field c (rr_with_data r new)) with (rr_class_field c r). rewrite <- !app_assoc. reflexivity.
Qed.
Lemma compressed_rewritten c h rs : forall i r bin m w m' bs, records_compressed c h rs bin m = Ok (w, m') -> nth_error rs i = Some r -> rdata_to_bytes c (rr_data r) = Ok bs -> rdata_names (rr_data r) = [] ->
  exists pre post, w = pre ++ bs ++ post /\ forall new bs', fits c (rr_data r) bs new bs' -> rdata_names new = [] -> records_compressed c h (at_index i (fun r => rr_with_data r new) rs) bin m = Ok (pre ++ bs' ++ post, m').
Proof.
  induction rs as [|x rs IH]; intros [|i] r bin m w m' bs E N Eb U; cbn in N; try discriminate N; cbn [records_compressed] in E; apply rbind_ok in E; destruct E as ([b m1] & E1 & E); cbn [fst snd] in E.
  - injection N as ->. destruct (rr_compressed_rewritten c h r m _ b m1 bs E1 Eb U) as (pre & -> & H).
    destruct (records_length c h rs _ (bin ++ pre ++ bs) _ _ _ eq_refl E) as (x & -> & _). exists (bin ++ pre), x. split; [rewrite <- !app_assoc; reflexivity|].
    intros new bs' F F4. cbn [at_index records_compressed]. rewrite (H new bs' F F4). cbn [rbind fst snd].
    destruct (records_length c h rs (bin ++ pre ++ bs) (bin ++ pre ++ bs') _ _ _ ltac:(rewrite !app_length, (proj1 (proj2 F)); reflexivity) E) as (x' & X & ->). apply app_inv_head in X. subst x'. rewrite <- !app_assoc. reflexivity.
  - destruct (IH i r _ _ _ _ bs E N Eb U) as (pre & post & -> & H). exists pre, post. split; [reflexivity|].
    intros new bs' F F4. cbn [at_index records_compressed]. rewrite E1. cbn [rbind fst snd]. apply (H new bs' F F4).
Qed.
Lemma packet_compressed_rewritten c h p s i r out bs : packet_to_bytes_compressed c h p = Ok out -> nth_error (records s p) i = Some r -> rdata_to_bytes c (rr_data r) = Ok bs -> rdata_names (rr_data r) = [] ->
  exists a, slice out a (length bs) = bs /\ forall new bs', fits c (rr_data r) bs new bs' -> rdata_names new = [] -> packet_to_bytes_compressed c h (with_data s i new p) = Ok (patch out a bs').
Proof.
  unfold packet_to_bytes_compressed. intros E N Eb U. destruct (questions_compressed c h (p_questions p) (header_to_bytes (p_header p)) []) as [w0 m0] eqn:E0.
  apply rbind_ok in E. destruct E as ([w1 m1] & E1 & E). cbn [fst snd] in E. apply rbind_ok in E. destruct E as ([w2 m2] & E2 & E). cbn [fst snd] in E.
  apply rbind_ok in E. destruct E as ([w3 m3] & E3 & E). cbn [fst snd] in E. apply ok_eq in E. subst out.
  assert (Q : forall new, questions_compressed c h (p_questions (with_data s i new p)) (header_to_bytes (p_header (with_data s i new p))) [] = (w0, m0)) by (intros new; rewrite <- E0; destruct s; reflexivity).
  assert (K : exists pre post, w3 = pre ++ bs ++ post /\
    forall new bs', fits c (rr_data r) bs new bs' -> rdata_names new = [] -> (let! s1 := records_compressed c h (p_answers (with_data s i new p)) w0 m0 in
      let! s2 := records_compressed c h (p_authorities (with_data s i new p)) (fst s1) (snd s1) in
      let! s3 := records_compressed c h (p_additionals (with_data s i new p)) (fst s2) (snd s2) in Ok (fst s3)) = Ok (pre ++ bs' ++ post)).
  { destruct s; cbn [records] in N; cbn [with_data p_answers p_authorities p_additionals]; cbv zeta.
    - destruct (compressed_rewritten c h _ i r _ _ _ _ bs E1 N Eb U) as (pre & post & -> & W).
      destruct (records_length c h _ _ (pre ++ bs ++ post) _ _ _ eq_refl E2) as (x & -> & _). destruct (records_length c h _ _ ((pre ++ bs ++ post) ++ x) _ _ _ eq_refl E3) as (y & -> & _).
      exists pre, (post ++ x ++ y). split; [rewrite <- !app_assoc; reflexivity|]. intros new bs' F F4. rewrite (W new bs' F F4). cbn [rbind fst snd]. pose proof (proj1 (proj2 F)) as Lb.
      destruct (records_length c h _ (pre ++ bs ++ post) (pre ++ bs' ++ post) _ _ _ ltac:(rewrite !app_length, Lb; reflexivity) E2) as (x' & X & ->). apply app_inv_head in X. subst x'. cbn [rbind fst snd].
      destruct (records_length c h _ ((pre ++ bs ++ post) ++ x) ((pre ++ bs' ++ post) ++ x) _ _ _ ltac:(rewrite !app_length, Lb; reflexivity) E3) as (y' & X & ->). apply app_inv_head in X. subst y'. cbn [rbind fst snd]. rewrite <- !app_assoc. reflexivity.
    - destruct (compressed_rewritten c h _ i r _ _ _ _ bs E2 N Eb U) as (pre & post & -> & W).
      destruct (records_length c h _ _ (pre ++ bs ++ post) _ _ _ eq_refl E3) as (y & -> & _).
      exists pre, (post ++ y). split; [rewrite <- !app_assoc; reflexivity|]. intros new bs' F F4. rewrite E1. cbn [rbind fst snd]. rewrite (W new bs' F F4). cbn [rbind fst snd]. pose proof (proj1 (proj2 F)) as Lb.
      destruct (records_length c h _ (pre ++ bs ++ post) (pre ++ bs' ++ post) _ _ _ ltac:(rewrite !app_length, Lb; reflexivity) E3) as (y' & X & ->). apply app_inv_head in X. subst y'. cbn [rbind fst snd]. rewrite <- !app_assoc. reflexivity.
    - destruct (compressed_rewritten c h _ i r _ _ _ _ bs E3 N Eb U) as (pre & post & -> & W).
      exists pre, post. split; [reflexivity|]. intros new bs' F F4. rewrite E1. cbn [rbind fst snd]. rewrite E2. cbn [rbind fst snd]. rewrite (W new bs' F F4). reflexivity. }
  destruct K as (pre & post & -> & W). exists (length pre). split; [apply slice_exact|].
  intros new bs' F F4. rewrite Q. rewrite (W new bs' F F4). f_equal. symmetry. apply patch_mid. apply (proj1 (proj2 F)).
Qed.
