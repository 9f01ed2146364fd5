(** * Facts for records appended in place. *)
From Coq Require Import Lia ZifyBool ZifyNat ZifyN.
From Verif Require Import Base Buffer Fqdn Header Types RDataBasic RData Packet BaseFacts HeaderSpec HeaderFacts ParseFacts WireFacts NameSpec WireSpec PatchSpec PatchFacts AppendSpec.

Lemma repeat_snoc {A} (p : P A) n : forall b xs b1 x b2, repeatP n p b = (Ok xs, b1) -> p b1 = (Ok x, b2) -> repeatP (S n) p b = (Ok (xs ++ [x]), b2).
Proof.
  induction n as [|n IH]; intros b xs b1 x b2 E F.
  - cbn in E. unfold ret in E. injection E as <- <-. cbn. unfold bind, ret. rewrite F. reflexivity.
  - cbn [repeatP] in E. unfold bind in E. destruct (p b) as [[y|e| |] by'] eqn:Y; try discriminate E. destruct (repeatP n p by') as [[ys|e| |] b3] eqn:Z; try discriminate E.
    unfold ret in E. injection E as <- <-. change (repeatP (S (S n)) p) with (x <- p ;; xs <- repeatP (S n) p ;; ret (x :: xs)). unfold bind at 1. rewrite Y. unfold bind. rewrite (IH _ _ _ _ _ Z F). reflexivity.
Qed.
Lemma repeat_length_ok {A} (p : P A) n : forall b xs b1, repeatP n p b = (Ok xs, b1) -> length xs = n.
Proof.
  induction n as [|n IH]; intros b xs b1 E.
  - cbn in E. injection E as <- _. reflexivity.
  - cbn [repeatP] in E. unfold bind in E. destruct (p b) as [[y|e| |] by'] eqn:Y; try discriminate E. destruct (repeatP n p by') as [[ys|e| |] b3] eqn:Z; try discriminate E.
    unfold ret in E. injection E as <- <-. cbn [length]. f_equal. apply (IH _ _ _ Z).
Qed.
(** The header read from its twelve octets. *)
Lemma header_here h0 h1 h2 h3 h4 h5 h6 h7 h8 h9 h10 h11 t :
  header_try_from (mkbuf ([h0;h1;h2;h3;h4;h5;h6;h7;h8;h9;h10;h11] ++ t) 0) =
  (Ok (mkheader (unbe [h0;h1]) (flags_from_bytes [h2;h3]) (unbe [h4;h5]) (unbe [h6;h7]) (unbe [h8;h9]) (unbe [h10;h11])), mkbuf ([h0;h1;h2;h3;h4;h5;h6;h7;h8;h9;h10;h11] ++ t) 12).
Proof.
  unfold header_try_from, extract_u16, extract_bytes, bind, ret. cbn [data pos].
  repeat match goal with |- context [Nat.ltb ?a ?b] => destruct (Nat.ltb_spec a b) as [X|_]; [cbn in X; lia|]; cbn [data pos] end. reflexivity.
Qed.
Lemma header_needs d h b : header_try_from (mkbuf d 0) = (Ok h, b) -> (12 <= length d)%nat.
Proof. intros E. do 12 (destruct d as [|? d]; [discriminate E|]). cbn [length]. lia. Qed.
Lemma twelve (d : bytes) : (12 <= length d)%nat -> exists h0 h1 h2 h3 h4 h5 h6 h7 h8 h9 h10 h11 t, d = [h0;h1;h2;h3;h4;h5;h6;h7;h8;h9;h10;h11] ++ t.
Proof. intros L. do 12 (destruct d as [|? d]; [cbn in L; lia|]). do 13 eexists. reflexivity. Qed.

(** The sections behind the header. *)
Definition sections_p (c : cfg) (h : header) : P packet :=
  qs <- repeatP (N.to_nat (ques_count h)) (question_try_from c) ;;
  an <- repeatP (N.to_nat (ans_count h)) (rr_try_from c) ;;
  au <- repeatP (N.to_nat (auth_count h)) (rr_try_from c) ;;
  ad <- repeatP (N.to_nat (add_count h)) (rr_try_from c) ;;
  ret (mkPacket h qs an au ad).
Lemma sections_inv c h b p b' : sections_p c h b = (Ok p, b') -> exists b1 b2 b3,
  p_header p = h /\ repeatP (N.to_nat (ques_count h)) (question_try_from c) b = (Ok (p_questions p), b1) /\
  repeatP (N.to_nat (ans_count h)) (rr_try_from c) b1 = (Ok (p_answers p), b2) /\
  repeatP (N.to_nat (auth_count h)) (rr_try_from c) b2 = (Ok (p_authorities p), b3) /\
  repeatP (N.to_nat (add_count h)) (rr_try_from c) b3 = (Ok (p_additionals p), b').
Proof.
  unfold sections_p, bind, ret. intros E.
  destruct (repeatP (N.to_nat (ques_count h)) (question_try_from c) b) as [[qs|e| |] b1] eqn:Q; try discriminate E.
  destruct (repeatP (N.to_nat (ans_count h)) (rr_try_from c) b1) as [[an|e| |] b2] eqn:A; try discriminate E.
  destruct (repeatP (N.to_nat (auth_count h)) (rr_try_from c) b2) as [[au|e| |] b3] eqn:U; try discriminate E.
  destruct (repeatP (N.to_nat (add_count h)) (rr_try_from c) b3) as [[ad|e| |] b4] eqn:D; try discriminate E.
  injection E as <- <-. exists b1, b2, b3. cbn. repeat split; assumption.
Qed.
Definition two (a : nat) (q : nat) : Prop := (a <= q < a + 2)%nat.
Lemma patched_two (d : bytes) s x : (12 <= length d)%nat -> length x = 2%nat -> twin (two (count_at s)) d (patch d (count_at s) x).
Proof.
  intros L X. unfold patch. assert (C : (count_at s <= 10)%nat) by (destruct s; cbn; lia). split.
  - rewrite !app_length, firstn_length, skipn_length, X. lia.
  - intros q NQ. unfold two in NQ. destruct (lt_dec q (count_at s)) as [Q|Q].
    + rewrite nth_error_app1 by (rewrite firstn_length; lia). apply nth_firstn_lt, Q.
    + rewrite nth_error_app2 by (rewrite firstn_length; lia). rewrite firstn_length. rewrite nth_error_app2 by lia. rewrite nth_skip, X. f_equal. lia.
Qed.
(** The sections as they lie in the message, and a counter that now says their number. *)
Definition count_of (s s' : section) (n : N) (old : N) : N :=
  match s, s' with Answers, Answers | Authorities, Authorities | Additionals, Additionals => n | _, _ => old end.
Lemma recount c d s n h b1 b2 b3 b4 b5 qs an au ad : byte_list d -> n < 65536 ->
  (forall q, (count_at s <= q < count_at s + 2)%nat -> ~ pointed_at d q) ->
  header_try_from (mkbuf d 0) = (Ok h, b1) ->
  repeatP (N.to_nat (ques_count h)) (question_try_from c) (mkbuf d 12) = (Ok qs, b2) ->
  repeatP (N.to_nat (count_of s Answers n (ans_count h))) (rr_try_from c) b2 = (Ok an, b3) ->
  repeatP (N.to_nat (count_of s Authorities n (auth_count h))) (rr_try_from c) b3 = (Ok au, b4) ->
  repeatP (N.to_nat (count_of s Additionals n (add_count h))) (rr_try_from c) b4 = (Ok ad, b5) ->
  packet_try_from_buf c (buf_from (patch d (count_at s) (be 2 n))) =
  (Ok (mkPacket (mkheader (id h) (hflags h) (ques_count h) (count_of s Answers n (ans_count h)) (count_of s Authorities n (auth_count h)) (count_of s Additionals n (add_count h))) qs an au ad),
   mkbuf (patch d (count_at s) (be 2 n)) (pos b5)).
Proof.
  intros B O NP Eh EQ EA EU ED. assert (Len := header_needs _ _ _ Eh).
  set (d3 := patch d (count_at s) (be 2 n)).
  pose proof (patched_two d s (be 2 n) Len (be_length 2 _)) as T. fold d3 in T.
  assert (Sf : safe (two (count_at s)) d) by (split; [exact B|intros q P Q; exact (NP q Q P)]).
  destruct (twelve d Len) as (h0 & h1 & h2 & h3 & h4 & h5 & h6 & h7 & h8 & h9 & h10 & h11 & t & D2).
  assert (H2 := header_here h0 h1 h2 h3 h4 h5 h6 h7 h8 h9 h10 h11 t). rewrite <- D2, Eh in H2. injection H2 as Hh _. rewrite Hh in *. cbn [ques_count ans_count auth_count add_count hflags id] in *.
  assert (NC : forall q, (12 <= q)%nat -> ~ two (count_at s) q) by (intros q Q X; unfold two in X; destruct s; cbn in X; lia).
  assert (AF : forall A (pr : P A) q x b', swaps (two (count_at s)) pr -> (12 <= q <= length d)%nat -> pr (mkbuf d q) = (Ok x, b') ->
    b' = mkbuf d (pos b') /\ (12 <= pos b' <= length d)%nat /\ pr (mkbuf d3 q) = (Ok x, mkbuf d3 (pos b'))).
  { intros A pr q x b' Sw Q Ep. destruct (after (two (count_at s)) pr (mkbuf d q) (mkbuf d3 q) x b' Sw) as (F1 & F2 & F3); [|exact Ep|intros q' Q'; apply NC; cbn in Q'; lia|].
    - split; [exact Sf|]. split; [exact T|]. split; [reflexivity|cbn; lia].
    - cbn [data pos] in *. split; [destruct b'; cbn in *; subst; reflexivity|]. split; [lia|exact F1]. }
  destruct (AF _ _ 12%nat _ _ (sw_repeat _ _ _ (sw_question _ c)) ltac:(lia) EQ) as (B1 & P1 & EQ3). rewrite B1 in EA.
  destruct (AF _ _ (pos b2) _ _ (sw_repeat _ _ _ (sw_rr _ c)) P1 EA) as (B2' & P2 & EA3). rewrite B2' in EU.
  destruct (AF _ _ (pos b3) _ _ (sw_repeat _ _ _ (sw_rr _ c)) P2 EU) as (B3 & P3 & EU3). rewrite B3 in ED.
  destruct (AF _ _ (pos b4) _ _ (sw_repeat _ _ _ (sw_rr _ c)) P3 ED) as (_ & P4 & ED3).
  assert (D3 : exists g6 g7 g8 g9 g10 g11, d3 = [h0;h1;h2;h3;h4;h5;g6;g7;g8;g9;g10;g11] ++ t /\
    unbe [g6;g7] = count_of s Answers n (unbe [h6;h7]) /\ unbe [g8;g9] = count_of s Authorities n (unbe [h8;h9]) /\ unbe [g10;g11] = count_of s Additionals n (unbe [h10;h11])).
  { assert (U : unbe (be 2 n) = n) by (apply unbe_be2; exact O). unfold d3, patch. rewrite D2, be_length. pose proof (be_length 2 n) as LB.
    destruct (be 2 n) as [|x0 [|x1 [|]]]; try discriminate LB. destruct s; cbn [count_at firstn app skipn Nat.add count_of];
      [exists x0, x1, h8, h9, h10, h11|exists h6, h7, x0, x1, h10, h11|exists h6, h7, h8, h9, x0, x1]; repeat split; exact U. }
  destruct D3 as (g6 & g7 & g8 & g9 & g10 & g11 & D3 & G1 & G2 & G3).
  assert (H3 := header_here h0 h1 h2 h3 h4 h5 g6 g7 g8 g9 g10 g11 t). rewrite <- D3 in H3. rewrite G1, G2, G3 in H3.
  unfold packet_try_from_buf, buf_from. fold d3. unfold bind at 1. rewrite H3. cbn [ques_count ans_count auth_count add_count].
  unfold bind. rewrite EQ3, EA3, EU3, ED3. reflexivity.
Qed.
Lemma packet_header c d p b : packet_try_from_buf c (buf_from d) = (Ok p, b) -> exists b1 b2 b3,
  header_try_from (mkbuf d 0) = (Ok (p_header p), mkbuf d 12) /\
  repeatP (N.to_nat (ques_count (p_header p))) (question_try_from c) (mkbuf d 12) = (Ok (p_questions p), b1) /\
  repeatP (N.to_nat (ans_count (p_header p))) (rr_try_from c) b1 = (Ok (p_answers p), b2) /\
  repeatP (N.to_nat (auth_count (p_header p))) (rr_try_from c) b2 = (Ok (p_authorities p), b3) /\
  repeatP (N.to_nat (add_count (p_header p))) (rr_try_from c) b3 = (Ok (p_additionals p), b).
Proof.
  intros E. unfold packet_try_from_buf, buf_from in E. unfold bind at 1 in E. destruct (header_try_from (mkbuf d 0)) as [[h|e| |] bh] eqn:H; try discriminate E.
  assert (Len := header_needs _ _ _ H). destruct (twelve d Len) as (h0 & h1 & h2 & h3 & h4 & h5 & h6 & h7 & h8 & h9 & h10 & h11 & t & D2).
  assert (H2 := header_here h0 h1 h2 h3 h4 h5 h6 h7 h8 h9 h10 h11 t). rewrite <- D2, H in H2. injection H2 as _ ->.
  destruct (sections_inv c _ _ _ _ E) as (b1 & b2 & b3 & Hp & R). rewrite Hp. exists b1, b2, b3. split; [reflexivity|exact R].
Qed.
Lemma uadd_ok c a : a + 1 < 65536 -> uadd c M16 a 1 = Ok (a + 1).
Proof. intros La. unfold uadd, M16. destruct (N.ltb_spec (a + 1) 65536); [reflexivity|lia]. Qed.
Lemma none_zero {A} (p : P A) n b b' : repeatP (N.to_nat n) p b = (Ok [], b') -> n = 0 /\ b' = b.
Proof. intros E. assert (L := repeat_length_ok _ _ _ _ _ E). cbn in L. assert (n = 0) by lia. subst n. cbn in E. injection E as ->. split; reflexivity. Qed.
Lemma append_read c d p s r b e : byte_list d ->
  packet_try_from_buf c (buf_from d) = (Ok p, b) -> is_last s p -> N.of_nat (length (records s p)) + 1 < 65536 -> rr_try_from c b = (Ok r, e) ->
  (forall q, (count_at s <= q < count_at s + 2)%nat -> ~ pointed_at d q) ->
  exists p', add_to c s p r = Ok p' /\ packet_try_from_buf c (buf_from (patch d (count_at s) (be 2 (N.of_nat (length (records s p)) + 1)))) =
    (Ok p', mkbuf (patch d (count_at s) (be 2 (N.of_nat (length (records s p)) + 1))) (pos e)).
Proof.
  intros B E LA O R NP. destruct (packet_header c d p b E) as (b1 & b2 & b3 & Eh & EQ & EA & EU & ED).
  assert (LenA := repeat_length_ok _ _ _ _ _ EA). assert (LenU := repeat_length_ok _ _ _ _ _ EU). assert (LenD := repeat_length_ok _ _ _ _ _ ED).
  set (n := N.of_nat (length (records s p)) + 1). assert (On : n < 65536) by (exact O).
  destruct p as [h qs an au ad]. cbn [p_header p_questions p_answers p_authorities p_additionals] in *.
  destruct s; cbn [records is_last p_answers p_authorities p_additionals] in *.
  - destruct LA as (-> & ->). apply none_zero in EU, ED. destruct EU as (ZU & ->). destruct ED as (ZD & ->).
    assert (Hn : ans_count h + 1 = n) by (unfold n; lia).
    eexists. split; [unfold add_to, add_answer; cbn [p_header]; rewrite uadd_ok by lia; cbn [rbind]; rewrite Hn; reflexivity|].
    pose proof (repeat_snoc _ _ _ _ _ _ _ EA R) as EA'. replace (S (N.to_nat (ans_count h))) with (N.to_nat n) in EA' by lia.
    rewrite (recount c d Answers n h _ b1 e e e qs (an ++ [r]) [] [] B On NP Eh EQ EA'); [reflexivity|cbn [count_of]; rewrite ZU; reflexivity|cbn [count_of]; rewrite ZD; reflexivity].
  - rewrite LA in *. clear LA. apply none_zero in ED. destruct ED as (ZD & ->).
    assert (Hn : auth_count h + 1 = n) by (unfold n; lia).
    eexists. split; [unfold add_to, add_authority; cbn [p_header]; rewrite uadd_ok by lia; cbn [rbind]; rewrite Hn; reflexivity|].
    pose proof (repeat_snoc _ _ _ _ _ _ _ EU R) as EU'. replace (S (N.to_nat (auth_count h))) with (N.to_nat n) in EU' by lia.
    rewrite (recount c d Authorities n h _ b1 b2 e e qs an (au ++ [r]) [] B On NP Eh EQ EA EU'); [reflexivity|cbn [count_of]; rewrite ZD; reflexivity].
  - assert (Hn : add_count h + 1 = n) by (unfold n; lia).
    eexists. split; [unfold add_to, add_additional; cbn [p_header]; rewrite uadd_ok by lia; cbn [rbind]; rewrite Hn; reflexivity|].
    pose proof (repeat_snoc _ _ _ _ _ _ _ ED R) as ED'. replace (S (N.to_nat (add_count h))) with (N.to_nat n) in ED' by lia.
    rewrite (recount c d Additionals n h _ b1 b2 b3 e qs an au (ad ++ [r]) B On NP Eh EQ EA EU ED'). reflexivity.
Qed.

(** ** Messages cut off behind a record *)
Lemma slice_firstn (d : bytes) k p n : (p + n <= k)%nat -> slice (firstn k d) p n = slice d p n.
Proof. intros K. unfold slice. rewrite skipn_firstn_comm, firstn_firstn. f_equal. lia. Qed.
Lemma label_cut d k p l : label_at d 191 p l -> (p + 1 + length l <= k)%nat -> label_at (firstn k d) 191 p l.
Proof.
  intros (n & E & R & L & ->) K. rewrite slice_length in K by exact L. exists n. split; [rewrite nth_firstn_lt by lia; exact E|]. split; [exact R|]. split; [rewrite firstn_length; lia|].
  symmetry. apply slice_firstn. lia.
Qed.
Lemma pointer_cut d k p t : pointer_at d p t -> (p + 2 <= k)%nat -> pointer_at (firstn k d) p t.
Proof. intros (a & b & E & A & E' & B & T) K. exists a, b. rewrite !nth_firstn_lt by lia. auto. Qed.
Lemma pointer_target d p t : pointer_at d p t -> exists n m, nth_error d p = Some n /\ 192 <= n /\ nth_error d (p + 1) = Some m /\ target n m = t.
Proof. intros (a & b & E & A & E' & B & ->). exists a, b. repeat split; try assumption. lia. Qed.
Lemma tail_cut d k lim t ls : tail_at d 191 lim t ls -> (forall q, looks d t q -> (q < length d)%nat -> (q < k)%nat) -> tail_at (firstn k d) 191 lim t ls.
Proof.
  induction 1 as [p E|p l ls Hl Ht IH|p t ls Hp Hlt Ht IH]; intros K.
  - constructor. rewrite nth_firstn_lt by (apply K; [constructor|apply nth_error_Some; congruence]). exact E.
  - assert (Hl' := Hl). destruct Hl as (n & E & R & L & ->). rewrite slice_length in * by exact L. constructor.
    + apply label_cut; [exact Hl'|]. rewrite slice_length by exact L. assert (X : (p + N.to_nat n < k)%nat) by (apply K; [apply (looks_text d p n); [exact E|lia|lia]|lia]). lia.
    + rewrite slice_length by exact L. apply IH. intros q Q. apply K. apply (looks_next d p n q E); [lia|lia|exact Q].
  - destruct (pointer_target d p t Hp) as (n & m & E & R & E' & T). econstructor; [|exact Hlt|].
    + apply pointer_cut; [exact Hp|]. assert (X : (p + 1 < k)%nat) by (apply K; [apply (looks_second d p n E R)|apply nth_error_Some; congruence]). lia.
    + apply IH. intros q Q. apply K. apply (looks_jump d p n m q E R E'). rewrite T. exact Q.
Qed.
Lemma name_cut d k p ls q : (forall q, (k <= q < length d)%nat -> ~ pointed_at d q) -> name_at d 191 p ls q -> (q <= k)%nat -> name_at (firstn k d) 191 p ls q.
Proof.
  intros NP. induction 1 as [p E|p l ls q Hl Ht IH|p t ls Hp Hlt Ht]; intros K.
  - constructor. rewrite nth_firstn_lt by lia. exact E.
  - pose proof (name_at_end _ _ _ _ Ht) as X. constructor; [apply label_cut; [exact Hl|lia]|apply IH; exact K].
  - econstructor; [apply pointer_cut; [exact Hp|exact K]|exact Hlt|]. apply tail_cut; [exact Ht|]. intros q Q Ld.
    destruct (lt_dec q k) as [|G]; [assumption|exfalso]. apply (NP q ltac:(lia)). destruct (pointer_target d p t Hp) as (n & m & E & R & E' & T). exists p, n, m. rewrite T. auto.
Qed.
Lemma u16_cut d k p n : u16_at d p n -> (p + 2 <= k)%nat -> u16_at (firstn k d) p n.
Proof. intros (a & b & E & A & E' & B & T) K. exists a, b. rewrite !nth_firstn_lt by lia. auto. Qed.
Lemma u32_cut d k p n : u32_at d p n -> (p + 4 <= k)%nat -> u32_at (firstn k d) p n.
Proof. intros (x & y & E & A & T) K. exists x, y. split; [apply u16_cut; [exact E|lia]|]. split; [apply u16_cut; [exact A|lia]|exact T]. Qed.
Lemma question_cut c d k p q e : (forall q, (k <= q < length d)%nat -> ~ pointed_at d q) -> question_at c d p q e -> (e <= k)%nat -> question_at c (firstn k d) p q e.
Proof.
  intros NP (m & v & N & U1 & D & U2 & C1 & C2 & ->) K. exists m, v. split; [apply name_cut; [exact NP|exact N|lia]|]. split; [apply u16_cut; [exact U1|lia]|]. split; [exact D|]. split; [apply u16_cut; [exact U2|lia]|auto].
Qed.
Lemma record_cut c d k p r e : (forall q, (k <= q < length d)%nat -> ~ pointed_at d q) -> record_at c d p r e -> (e <= k)%nat -> record_at c (firstn k d) p r e.
Proof.
  intros NP (m & v & len & N & U1 & D & U2 & K1 & K2 & Z & T & U3 & -> & L & Y) K. exists m, v, len.
  split; [apply name_cut; [exact NP|exact N|lia]|]. split; [apply u16_cut; [exact U1|lia]|]. split; [exact D|]. split; [apply u16_cut; [exact U2|lia]|].
  split; [exact K1|]. split; [exact K2|]. split; [exact Z|]. split; [apply u32_cut; [exact T|lia]|]. split; [apply u16_cut; [exact U3|lia]|].
  split; [reflexivity|]. split; [rewrite firstn_length; lia|]. rewrite firstn_firstn. rewrite Nat.min_l by lia. exact Y.
Qed.
Lemma consecutive_le {X} (R : nat -> X -> nat -> Prop) p xs e : consecutive R p xs e -> (p <= e)%nat.
Proof. induction 1; lia. Qed.
Lemma consecutive_cut {X} (R R' : nat -> X -> nat -> Prop) k p xs e : (forall p x e, R p x e -> (e <= k)%nat -> R' p x e) ->
  consecutive R p xs e -> (e <= k)%nat -> consecutive R' p xs e.
Proof. intros H. induction 1 as [|p x m xs e E L C IH]; intros K; [constructor|]. pose proof (consecutive_le _ _ _ _ C). econstructor; [apply H; [exact E|lia]|exact L|apply IH, K]. Qed.
Lemma consecutive_snoc {X} (R : nat -> X -> nat -> Prop) xs x : forall p e, consecutive R p (xs ++ [x]) e -> exists k, consecutive R p xs k /\ R k x e.
Proof.
  induction xs as [|y xs IH]; intros p e C; inversion C as [|? ? m ? ? E L C']; subst.
  - inversion C'; subst. exists p. split; [constructor|exact E].
  - destruct (IH _ _ C') as (k & C1 & C2). exists k. split; [econstructor; eassumption|exact C2].
Qed.
Lemma header_cut d k h b : (12 <= k)%nat -> header_try_from (mkbuf d 0) = (Ok h, b) -> header_try_from (mkbuf (firstn k d) 0) = (Ok h, mkbuf (firstn k d) 12).
Proof.
  intros K E. assert (Len := header_needs _ _ _ E). destruct (twelve d Len) as (h0 & h1 & h2 & h3 & h4 & h5 & h6 & h7 & h8 & h9 & h10 & h11 & t & D2).
  assert (H2 := header_here h0 h1 h2 h3 h4 h5 h6 h7 h8 h9 h10 h11 t). rewrite <- D2, E in H2. injection H2 as -> _.
  assert (F : firstn k d = [h0;h1;h2;h3;h4;h5;h6;h7;h8;h9;h10;h11] ++ firstn (k - 12) t) by (rewrite D2, firstn_app; do 12 (destruct k as [|k]; [lia|]); cbn; rewrite ?firstn_nil; repeat f_equal; lia).
  rewrite F. apply header_here.
Qed.
Lemma none_here {X} (R : nat -> X -> nat -> Prop) p e : consecutive R p [] e -> e = p.
Proof. inversion 1. reflexivity. Qed.
Lemma remove_read c d p s rs r b : byte_list d ->
  packet_try_from_buf c (buf_from d) = (Ok p, b) -> is_last s p -> records s p = rs ++ [r] ->
  exists k, (k < length d)%nat /\ rr_try_from c (mkbuf d k) = (Ok r, b) /\
    ((forall q, (count_at s <= q < count_at s + 2)%nat \/ (k <= q < length d)%nat -> ~ pointed_at d q) ->
     packet_try_from_buf c (buf_from (patch (firstn k d) (count_at s) (be 2 (N.of_nat (length rs))))) =
     (Ok (set_to s p rs), mkbuf (patch (firstn k d) (count_at s) (be 2 (N.of_nat (length rs)))) k)).
Proof.
  intros B E LA RS. destruct (packet_header c d p b E) as (b1 & b2 & b3 & Eh & EQ & EA & EU & ED).
  assert (LenQ := repeat_length_ok _ _ _ _ _ EQ). assert (LenA := repeat_length_ok _ _ _ _ _ EA). assert (LenU := repeat_length_ok _ _ _ _ _ EU). assert (LenD := repeat_length_ok _ _ _ _ _ ED).
  assert (H := E). apply (packet_got c d p b B) in H. destruct H as (e & (L12 & _ & HT & _ & _ & e1 & e2 & e3 & S1 & S2 & S3 & S4) & ->).
  assert (M : ans_count (p_header p) < 65536 /\ auth_count (p_header p) < 65536 /\ add_count (p_header p) < 65536) by (destruct HT; tauto).
  assert (Go : forall k, (12 <= k)%nat -> (forall q, (count_at s <= q < count_at s + 2)%nat \/ (k <= q < length d)%nat -> ~ pointed_at d q) ->
    byte_list (firstn k d) /\ (forall q, (count_at s <= q < count_at s + 2)%nat -> ~ pointed_at (firstn k d) q) /\ header_try_from (mkbuf (firstn k d) 0) = (Ok (p_header p), mkbuf (firstn k d) 12) /\
    (forall p q e, question_at c d p q e -> (e <= k)%nat -> question_at c (firstn k d) p q e) /\ (forall p q e, record_at c d p q e -> (e <= k)%nat -> record_at c (firstn k d) p q e)).
  { intros k K NP. split; [apply byte_list_cut, B|]. split.
    - intros q Q (i & n & m & E1 & R1 & E2 & Lk). apply (NP q (or_introl Q)). exists i, n, m. split; [apply nth_cut in E1; exact E1|]. split; [exact R1|]. split; [apply nth_cut in E2; exact E2|]. apply (looks_cut d k _ _ Lk).
    - split; [apply (header_cut d k _ _ K Eh)|]. split; intros x y z Xy Z; [apply question_cut|apply record_cut]; try assumption; intros q Q; apply NP; right; exact Q. }
  assert (SQ := section_read (question_try_from c) (question_at c) (question_read c)).
  assert (SR := section_read (rr_try_from c) (record_at c) (record_read c)).
  pose proof (consecutive_le _ _ _ _ S1) as O1. pose proof (consecutive_le _ _ _ _ S2) as O2. pose proof (consecutive_le _ _ _ _ S3) as O3.
  destruct p as [h qs an au ad]. cbn [p_header p_questions p_answers p_authorities p_additionals] in *.
  destruct s; cbn [records is_last p_answers p_authorities p_additionals] in *.
  - destruct LA as (-> & ->). apply none_here in S3, S4. subst e3 e. subst an. destruct (consecutive_snoc _ _ _ _ _ S2) as (k & C1 & C2). pose proof (consecutive_le _ _ _ _ C1) as O4.
    pose proof (record_at_end _ _ _ _ _ C2) as E4. exists k. split; [lia|]. split; [apply record_read, C2|]. intros NP. destruct (Go k ltac:(lia) NP) as (Bk & NPk & Hk & Qk & Rk).
    pose proof (SQ _ _ _ _ (consecutive_cut _ _ k _ _ _ Qk S1 ltac:(lia))) as X1. pose proof (SR _ _ _ _ (consecutive_cut _ _ k _ _ _ Rk C1 ltac:(lia))) as X2.
    rewrite app_length in LenA. cbn [length] in *.
    rewrite (recount c (firstn k d) Answers (N.of_nat (length rs)) h (mkbuf (firstn k d) 12) (mkbuf (firstn k d) e1) (mkbuf (firstn k d) k) (mkbuf (firstn k d) k) (mkbuf (firstn k d) k) qs rs [] [] Bk ltac:(lia) NPk Hk).
    + unfold set_to, set_answers. cbn [count_of p_header p_questions p_authorities p_additionals]. rewrite len16_id by lia. reflexivity.
    + rewrite <- LenQ. exact X1.
    + cbn [count_of]. rewrite Nat2N.id. exact X2.
    + cbn [count_of]. rewrite <- LenU. reflexivity.
    + cbn [count_of]. rewrite <- LenD. reflexivity.
  - subst ad. apply none_here in S4. subst e. subst au. destruct (consecutive_snoc _ _ _ _ _ S3) as (k & C1 & C2). pose proof (consecutive_le _ _ _ _ C1) as O4.
    pose proof (record_at_end _ _ _ _ _ C2) as E4. exists k. split; [lia|]. split; [apply record_read, C2|]. intros NP. destruct (Go k ltac:(lia) NP) as (Bk & NPk & Hk & Qk & Rk).
    pose proof (SQ _ _ _ _ (consecutive_cut _ _ k _ _ _ Qk S1 ltac:(lia))) as X1. pose proof (SR _ _ _ _ (consecutive_cut _ _ k _ _ _ Rk S2 ltac:(lia))) as X2. pose proof (SR _ _ _ _ (consecutive_cut _ _ k _ _ _ Rk C1 ltac:(lia))) as X3.
    rewrite app_length in LenU. cbn [length] in *.
    rewrite (recount c (firstn k d) Authorities (N.of_nat (length rs)) h (mkbuf (firstn k d) 12) (mkbuf (firstn k d) e1) (mkbuf (firstn k d) e2) (mkbuf (firstn k d) k) (mkbuf (firstn k d) k) qs an rs [] Bk ltac:(lia) NPk Hk).
    + unfold set_to, set_authorities. cbn [count_of p_header p_questions p_answers p_additionals]. rewrite len16_id by lia. reflexivity.
    + rewrite <- LenQ. exact X1.
    + cbn [count_of]. rewrite <- LenA. exact X2.
    + cbn [count_of]. rewrite Nat2N.id. exact X3.
    + cbn [count_of]. rewrite <- LenD. reflexivity.
  - subst ad. destruct (consecutive_snoc _ _ _ _ _ S4) as (k & C1 & C2). pose proof (consecutive_le _ _ _ _ C1) as O4.
    pose proof (record_at_end _ _ _ _ _ C2) as E4. exists k. split; [lia|]. split; [apply record_read, C2|]. intros NP. destruct (Go k ltac:(lia) NP) as (Bk & NPk & Hk & Qk & Rk).
    pose proof (SQ _ _ _ _ (consecutive_cut _ _ k _ _ _ Qk S1 ltac:(lia))) as X1. pose proof (SR _ _ _ _ (consecutive_cut _ _ k _ _ _ Rk S2 ltac:(lia))) as X2. pose proof (SR _ _ _ _ (consecutive_cut _ _ k _ _ _ Rk S3 ltac:(lia))) as X3. pose proof (SR _ _ _ _ (consecutive_cut _ _ k _ _ _ Rk C1 ltac:(lia))) as X4.
    rewrite app_length in LenD. cbn [length] in *.
    rewrite (recount c (firstn k d) Additionals (N.of_nat (length rs)) h (mkbuf (firstn k d) 12) (mkbuf (firstn k d) e1) (mkbuf (firstn k d) e2) (mkbuf (firstn k d) e3) (mkbuf (firstn k d) k) qs an au rs Bk ltac:(lia) NPk Hk).
    + unfold set_to, set_additionals. cbn [count_of p_header p_questions p_answers p_authorities]. rewrite len16_id by lia. reflexivity.
    + rewrite <- LenQ. exact X1.
    + cbn [count_of]. rewrite <- LenA. exact X2.
    + cbn [count_of]. rewrite <- LenU. exact X3.
    + cbn [count_of]. rewrite Nat2N.id. exact X4.
Qed.

(** ** Written messages *)
Lemma concat_snoc {A} (f : A -> res bytes) l x w b : concat_res f l = Ok w -> f x = Ok b -> concat_res f (l ++ [x]) = Ok (w ++ b).
Proof.
  revert w. induction l as [|y l IH]; intros w E F.
  - injection E as <-. cbn. rewrite F. cbn. rewrite app_nil_r. reflexivity.
  - cbn [concat_res app] in *. apply rbind_ok in E. destruct E as (v & E1 & E). rewrite E1. cbn [rbind]. apply rbind_ok in E. destruct E as (u & E2 & E). rewrite (IH _ E2 F). cbn [rbind]. injection E as <-. rewrite app_assoc. reflexivity.
Qed.
Lemma sum_snoc {A} (f : A -> res nat) l x n k : sum_res f l = Ok n -> f x = Ok k -> sum_res f (l ++ [x]) = Ok (n + k)%nat.
Proof.
  revert n. induction l as [|y l IH]; intros n E F.
  - injection E as <-. cbn. rewrite F. cbn. rewrite Nat.add_0_r. reflexivity.
  - cbn [sum_res app] in *. apply rbind_ok in E. destruct E as (v & E1 & E). rewrite E1. cbn [rbind]. apply rbind_ok in E. destruct E as (u & E2 & E). rewrite (IH _ E2 F). cbn [rbind]. injection E as <-. f_equal. lia.
Qed.
Lemma header_twelve h : exists a, header_to_bytes h = a ++ be 2 (ques_count h) ++ be 2 (ans_count h) ++ be 2 (auth_count h) ++ be 2 (add_count h) /\ length a = 4%nat.
Proof. exists (be 2 (id h) ++ flags_into_bytes (hflags h)). unfold header_to_bytes, flags_into_bytes. split; [rewrite <- !app_assoc; reflexivity|rewrite app_length, !be_length; reflexivity]. Qed.
Lemma firstn_four (a t : bytes) : length a = 4%nat -> firstn 4 (a ++ t) = a.
Proof. intros L. destruct a as [|? [|? [|? [|? [|]]]]]; try discriminate L. reflexivity. Qed.
Lemma append_written c p s r out rb n : packet_to_bytes c p = Ok out -> rr_byte_size c r = Ok n -> rr_to_bytes c r = Ok rb -> is_last s p -> forall p', add_to c s p r = Ok p' ->
  packet_to_bytes c p' = Ok (patch (out ++ rb) (count_at s) (be 2 (len16 (S (length (records s p)))))).
Proof.
  intros E Z R LA p' A. unfold packet_to_bytes in E. apply rbind_ok in E. destruct E as (z & E0 & E). apply rbind_ok in E. destruct E as (wa & E1 & E). apply rbind_ok in E. destruct E as (wn & E2 & E).
  apply rbind_ok in E. destruct E as (wd & E3 & E). apply ok_eq in E. subst out.
  unfold packet_byte_size in E0. apply rbind_ok in E0. destruct E0 as (z1 & Z1 & E0). apply rbind_ok in E0. destruct E0 as (z2 & Z2 & E0). apply rbind_ok in E0. destruct E0 as (z3 & Z3 & _).
  destruct p as [h qs an au ad]. cbn [p_header p_questions p_answers p_authorities p_additionals] in *.
  assert (X : forall (a b x y t : bytes), length (a ++ b) = count_at s -> length x = 2%nat -> length y = 2%nat -> patch (a ++ b ++ x ++ t) (count_at s) y = a ++ b ++ y ++ t).
  { intros a b x y t La Lx Ly. rewrite !app_assoc. rewrite <- !(app_assoc (a ++ b)). rewrite <- La. apply patch_mid. lia. }
  destruct (header_twelve h) as (ha & Eh & La).
  assert (F4 : firstn 4 (header_to_bytes h) = ha) by (rewrite Eh; apply firstn_four, La).
  assert (S12 : skipn 12 (header_to_bytes h) = []) by (apply skipn_all2; rewrite Eh, !app_length, La, !be_length; lia).
  destruct s; cbn [records is_last add_to p_answers p_authorities p_additionals] in *.
  - destruct LA as (-> & ->). unfold add_answer in A. apply rbind_ok in A. destruct A as (m & _ & A). injection A as <-. injection E2 as <-. injection E3 as <-. injection Z2 as <-. injection Z3 as <-.
    unfold packet_to_bytes, packet_byte_size. cbn [p_header p_questions p_answers p_authorities p_additionals].
    rewrite (sum_snoc _ _ _ _ _ Z1 Z). cbn [rbind sum_res]. rewrite (concat_snoc _ _ _ _ _ E1 R). cbn [rbind concat_res]. f_equal.
    unfold patched_header. cbn [p_header p_questions p_answers p_authorities p_additionals]. change (header_to_bytes (with_counts h _ _ _ _)) with (firstn 4 (header_to_bytes h) ++ be 2 (ques_count h) ++ be 2 m ++ be 2 (auth_count h) ++ be 2 (add_count h)).
    rewrite F4, S12, !app_nil_r. assert (F4' : forall t, firstn 4 (ha ++ t) = ha) by (intros t; apply firstn_four, La). rewrite F4'.
    rewrite skipn_all2 by (rewrite !app_length, La, !be_length; lia). rewrite <- !app_assoc. rewrite X; [|rewrite app_length, La, be_length; reflexivity|apply be_length|apply be_length].
    rewrite app_length. cbn [length app]. rewrite Nat.add_1_r. reflexivity.
  - subst ad. unfold add_authority in A. apply rbind_ok in A. destruct A as (m & _ & A). injection A as <-. injection E3 as <-. injection Z3 as <-.
    unfold packet_to_bytes, packet_byte_size. cbn [p_header p_questions p_answers p_authorities p_additionals].
    rewrite Z1. cbn [rbind]. rewrite (sum_snoc _ _ _ _ _ Z2 Z). cbn [rbind sum_res]. rewrite E1. cbn [rbind]. rewrite (concat_snoc _ _ _ _ _ E2 R). cbn [rbind concat_res]. f_equal.
    unfold patched_header. cbn [p_header p_questions p_answers p_authorities p_additionals]. change (header_to_bytes (with_counts h _ _ _ _)) with (firstn 4 (header_to_bytes h) ++ be 2 (ques_count h) ++ be 2 (ans_count h) ++ be 2 m ++ be 2 (add_count h)).
    rewrite F4, S12, !app_nil_r. assert (F4' : forall t, firstn 4 (ha ++ t) = ha) by (intros t; apply firstn_four, La). rewrite F4'.
    rewrite skipn_all2 by (rewrite !app_length, La, !be_length; lia). rewrite <- !app_assoc. rewrite !(app_assoc (be 2 (len16 (length qs))) (be 2 (len16 (length an)))). rewrite (X ha (be 2 (len16 (length qs)) ++ be 2 (len16 (length an)))); [|rewrite !app_length, La, !be_length; reflexivity|apply be_length|apply be_length].
    rewrite app_length. cbn [length app]. rewrite Nat.add_1_r. rewrite <- !app_assoc. reflexivity.
  - unfold add_additional in A. apply rbind_ok in A. destruct A as (m & _ & A). injection A as <-.
    unfold packet_to_bytes, packet_byte_size. cbn [p_header p_questions p_answers p_authorities p_additionals].
    rewrite Z1. cbn [rbind]. rewrite Z2. cbn [rbind]. rewrite (sum_snoc _ _ _ _ _ Z3 Z). cbn [rbind]. rewrite E1. cbn [rbind]. rewrite E2. cbn [rbind]. rewrite (concat_snoc _ _ _ _ _ E3 R). cbn [rbind]. f_equal.
    unfold patched_header. cbn [p_header p_questions p_answers p_authorities p_additionals]. change (header_to_bytes (with_counts h _ _ _ _)) with (firstn 4 (header_to_bytes h) ++ be 2 (ques_count h) ++ be 2 (ans_count h) ++ be 2 (auth_count h) ++ be 2 m).
    rewrite F4, S12, !app_nil_r. assert (F4' : forall t, firstn 4 (ha ++ t) = ha) by (intros t; apply firstn_four, La). rewrite F4'.
    rewrite skipn_all2 by (rewrite !app_length, La, !be_length; lia). rewrite <- !app_assoc. rewrite !(app_assoc (be 2 (len16 (length qs))) (be 2 (len16 (length an)))), !(app_assoc (be 2 (len16 (length qs)) ++ be 2 (len16 (length an))) (be 2 (len16 (length au)))). rewrite (X ha ((be 2 (len16 (length qs)) ++ be 2 (len16 (length an))) ++ be 2 (len16 (length au)))); [|rewrite !app_length, La, !be_length; reflexivity|apply be_length|apply be_length].
    rewrite app_length. cbn [length app]. rewrite Nat.add_1_r. rewrite <- !app_assoc. reflexivity.
Qed.
Lemma records_snoc c h rs r : forall bin m w m' w2 m2, records_compressed c h rs bin m = Ok (w, m') -> records_compressed c h (rs ++ [r]) bin m = Ok (w2, m2) ->
  exists rb k k', rr_to_bytes_compressed c h r k (length w) = Ok (rb, k') /\ w2 = w ++ rb.
Proof.
  induction rs as [|x rs IH]; intros bin m w m' w2 m2 E F.
  - injection E as <- <-. cbn in F. apply rbind_ok in F. destruct F as ([b k] & F0 & F). injection F as <- _. exists b, m, k. split; [exact F0|reflexivity].
  - cbn [records_compressed app] in *. apply rbind_ok in E. destruct E as ([b k] & E1 & E). rewrite E1 in F. cbn [rbind] in F. apply (IH _ _ _ _ _ _ E F).
Qed.
Lemma append_compressed c h p s r out p' out' : packet_to_bytes_compressed c h p = Ok out -> is_last s p -> add_to c s p r = Ok p' -> packet_to_bytes_compressed c h p' = Ok out' ->
  exists rb m m', rr_to_bytes_compressed c h r m (length out) = Ok (rb, m') /\ out' = patch (out ++ rb) (count_at s) (be 2 (counter s p')).
Proof.
  unfold packet_to_bytes_compressed. intros E LA A F.
  destruct (questions_compressed c h (p_questions p) (header_to_bytes (p_header p)) []) as [w0 m0] eqn:E0.
  assert (Hd : length (header_to_bytes (p_header p')) = length (header_to_bytes (p_header p))).
  { destruct (header_twelve (p_header p')) as (x & -> & Lx). destruct (header_twelve (p_header p)) as (y & -> & Ly). rewrite !app_length, Lx, Ly, !be_length. reflexivity. }
  assert (Pq : p_questions p' = p_questions p) by (destruct s; cbn [add_to] in A; apply rbind_ok in A; destruct A as (m & _ & A); injection A as <-; reflexivity).
  destruct (questions_length c h _ _ _ _ _ _ Hd E0) as (x0 & -> & Q0). rewrite Pq, Q0 in F. clear Q0 E0.
  assert (Fin : forall x, patch ((header_to_bytes (p_header p) ++ x0) ++ x) (count_at s) (be 2 (counter s p')) = (header_to_bytes (p_header p') ++ x0) ++ x).
  { intros x. destruct p as [hh qs an au ad]. cbn [p_header] in *. pose proof (header_twelve hh) as (ha & Eh & La).
    assert (X : forall (a b x y t : bytes), length (a ++ b) = count_at s -> length x = 2%nat -> length y = 2%nat -> patch (a ++ b ++ x ++ t) (count_at s) y = a ++ b ++ y ++ t).
    { intros a b u y t L0 Lx Ly. rewrite !app_assoc. rewrite <- !(app_assoc (a ++ b)). rewrite <- L0. apply patch_mid. lia. }
    assert (F4 : firstn 4 (header_to_bytes hh) = ha) by (rewrite Eh; apply firstn_four, La).
    destruct s; cbn [add_to] in A; apply rbind_ok in A; destruct A as (m & _ & A); injection A as <-; unfold counter, with_counts in *; cbn [p_header ans_count auth_count add_count ques_count];
      match goal with |- context [header_to_bytes (mkheader ?i ?f ?q ?a ?u ?d)] => let y := constr:(mkheader i f q a u d) in change (header_to_bytes y) with (firstn 4 (header_to_bytes hh) ++ be 2 q ++ be 2 a ++ be 2 u ++ be 2 d) end;
      rewrite F4, Eh, <- !app_assoc.
    - rewrite X; [reflexivity|rewrite app_length, La, be_length; reflexivity|apply be_length|apply be_length].
    - rewrite !(app_assoc (be 2 (ques_count hh)) (be 2 (ans_count hh))). rewrite (X ha (be 2 (ques_count hh) ++ be 2 (ans_count hh))); [rewrite <- !app_assoc; reflexivity|rewrite !app_length, La, !be_length; reflexivity|apply be_length|apply be_length].
    - rewrite !(app_assoc (be 2 (ques_count hh)) (be 2 (ans_count hh))), !(app_assoc (be 2 (ques_count hh) ++ be 2 (ans_count hh)) (be 2 (auth_count hh))). rewrite (X ha ((be 2 (ques_count hh) ++ be 2 (ans_count hh)) ++ be 2 (auth_count hh))); [rewrite <- !app_assoc; reflexivity|rewrite !app_length, La, !be_length; reflexivity|apply be_length|apply be_length]. }
  apply rbind_ok in E. destruct E as ([w1 m1] & E1 & E). cbn [fst snd] in E. apply rbind_ok in E. destruct E as ([w2 m2] & E2 & E). cbn [fst snd] in E.
  apply rbind_ok in E. destruct E as ([w3 m3] & E3 & E). cbn [fst snd] in E. apply ok_eq in E. subst out.
  assert (L0 : length (header_to_bytes (p_header p') ++ x0) = length (header_to_bytes (p_header p) ++ x0)) by (rewrite !app_length, Hd; reflexivity).
  destruct (records_length c h _ _ (header_to_bytes (p_header p') ++ x0) _ _ _ L0 E1) as (x1 & -> & Q1).
  assert (L1 : length ((header_to_bytes (p_header p') ++ x0) ++ x1) = length ((header_to_bytes (p_header p) ++ x0) ++ x1)) by (rewrite (app_length _ x1), (app_length _ x1), L0; reflexivity).
  destruct (records_length c h _ _ ((header_to_bytes (p_header p') ++ x0) ++ x1) _ _ _ L1 E2) as (x2 & -> & Q2).
  assert (L2 : length (((header_to_bytes (p_header p') ++ x0) ++ x1) ++ x2) = length (((header_to_bytes (p_header p) ++ x0) ++ x1) ++ x2)) by (rewrite (app_length _ x2), (app_length _ x2), L1; reflexivity).
  destruct (records_length c h _ _ (((header_to_bytes (p_header p') ++ x0) ++ x1) ++ x2) _ _ _ L2 E3) as (x3 & -> & Q3).
  apply rbind_ok in F. destruct F as ([v1 n1] & F1 & F). cbn [fst snd] in F. apply rbind_ok in F. destruct F as ([v2 n2] & F2 & F). cbn [fst snd] in F.
  apply rbind_ok in F. destruct F as ([v3 n3] & F3 & F). cbn [fst snd] in F. apply ok_eq in F. subst out'.
  destruct s; cbn [add_to is_last] in *; apply rbind_ok in A; destruct A as (m & _ & A); apply ok_eq in A;
    assert (Pa := f_equal p_answers A); assert (Pu := f_equal p_authorities A); assert (Pd := f_equal p_additionals A); cbn [p_answers p_authorities p_additionals] in Pa, Pu, Pd; rewrite <- Pa in F1; rewrite <- Pu in F2; rewrite <- Pd in F3.
  - destruct LA as (U & D). rewrite U in *. rewrite D in *. destruct (records_snoc _ _ _ _ _ _ _ _ _ _ Q1 F1) as (rb & k & k' & Er & ->). cbn [records_compressed] in F2. pose proof (f_equal fst (ok_eq _ _ F2)) as Y2. cbn [fst] in Y2. subst v2. clear F2. cbn [records_compressed] in F3. pose proof (f_equal fst (ok_eq _ _ F3)) as Y3. cbn [fst] in Y3. subst v3. clear F3.
    cbn [records_compressed] in E2, E3. assert (X2 := f_equal fst (ok_eq _ _ E2)). assert (X3 := f_equal fst (ok_eq _ _ E3)). cbn [fst] in X2, X3. rewrite <- X3, <- X2. exists rb, k, k'. split; [rewrite <- Er; f_equal; rewrite !app_length in *; lia|]. set (H0 := header_to_bytes (p_header p) ++ x0) in *; set (H1 := header_to_bytes (p_header p') ++ x0) in *; clearbody H0 H1; rewrite <- !app_assoc; rewrite Fin; reflexivity.
  - rewrite LA in *. rewrite F1 in Q1. pose proof (f_equal fst (ok_eq _ _ Q1)) as Y1. pose proof (f_equal snd (ok_eq _ _ Q1)) as Y1'. cbn [fst snd] in Y1, Y1'. subst v1 n1. destruct (records_snoc _ _ _ _ _ _ _ _ _ _ Q2 F2) as (rb & k & k' & Er & ->). cbn [records_compressed] in F3. pose proof (f_equal fst (ok_eq _ _ F3)) as Y3. cbn [fst] in Y3. subst v3. clear F3.
    cbn [records_compressed] in E3. assert (X3 := f_equal fst (ok_eq _ _ E3)). cbn [fst] in X3. rewrite <- X3. exists rb, k, k'. split; [rewrite <- Er; f_equal; rewrite !app_length in *; lia|]. set (H0 := header_to_bytes (p_header p) ++ x0) in *; set (H1 := header_to_bytes (p_header p') ++ x0) in *; clearbody H0 H1; rewrite <- !app_assoc; rewrite Fin; reflexivity.
  - rewrite F1 in Q1. pose proof (f_equal fst (ok_eq _ _ Q1)) as Y1. pose proof (f_equal snd (ok_eq _ _ Q1)) as Y1'. cbn [fst snd] in Y1, Y1'. subst v1 n1. rewrite F2 in Q2. pose proof (f_equal fst (ok_eq _ _ Q2)) as Y2. pose proof (f_equal snd (ok_eq _ _ Q2)) as Y2'. cbn [fst snd] in Y2, Y2'. subst v2 n2. destruct (records_snoc _ _ _ _ _ _ _ _ _ _ Q3 F3) as (rb & k & k' & Er & ->).
    exists rb, k, k'. split; [rewrite <- Er; f_equal; rewrite !app_length in *; lia|]. set (H0 := header_to_bytes (p_header p) ++ x0) in *; set (H1 := header_to_bytes (p_header p') ++ x0) in *; clearbody H0 H1; rewrite <- !app_assoc; rewrite Fin; reflexivity.
Qed.
