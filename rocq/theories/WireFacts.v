(** * Parsing questions, records and packets is exactly reading them off the layout relations. *)
From Verif Require Import Base Buffer Fqdn Header Types RDataBasic Bitmap Svcb RDataSec RData Packet BaseFacts BufferFacts
  NameSpec FqdnLoop WalkFacts FqdnFacts CodeSpec CodeFacts HeaderSpec HeaderFacts WindowFacts RDataSpec RecordSpec RecordFacts ParseFacts WireSpec.
From Coq Require Import Lia ZifyBool ZifyNat ZifyN.
Ltac Zify.zify_post_hook ::= Z.div_mod_to_equations.

Lemma bind_ok {A B} (p : P A) (f : A -> P B) b v b' : bind p f b = (Ok v, b') ->
  exists a b1, p b = (Ok a, b1) /\ f a b1 = (Ok v, b').
Proof. unfold bind. destruct (p b) as [[a|e| |] b1]; try discriminate. eauto. Qed.

Lemma slice2 (d : bytes) p a b : nth_error d p = Some a -> nth_error d (p + 1) = Some b -> slice d p 2 = [a; b].
Proof.
  intros E1 E2. apply nth_error_split in E1. destruct E1 as (l1 & l2 & -> & <-).
  rewrite nth_error_app2 in E2 by lia. replace (length l1 + 1 - length l1)%nat with 1%nat in E2 by lia. cbn in E2.
  destruct l2 as [|y l2]; [discriminate|]. injection E2 as ->. apply (slice_exact l1 [a; b] l2).
Qed.
Lemma nth_some (d : bytes) p : (p < length d)%nat -> exists a, nth_error d p = Some a.
Proof. intros H. destruct (nth_error d p) eqn:E; [eauto|]. apply nth_error_None in E. lia. Qed.
Lemma nth_byte (d : bytes) p a : byte_list d -> nth_error d p = Some a -> a < 256.
Proof. intros B E. apply nth_error_In in E. unfold byte_list in B. rewrite Forall_forall in B. apply B, E. Qed.

Lemma u16_at_end d p n : u16_at d p n -> (p + 2 <= length d)%nat.
Proof. intros (a & b & _ & _ & E & _). assert (p + 1 < length d)%nat by (apply nth_error_Some; congruence). lia. Qed.
Lemma u16_at_lt d p n : u16_at d p n -> n < 65536.
Proof. intros (a & b & _ & A & _ & B & ->). lia. Qed.
Lemma u16_read d p n : u16_at d p n -> extract_u16 (mkbuf d p) = (Ok n, mkbuf d (p + 2)).
Proof.
  intros H. pose proof (u16_at_end _ _ _ H) as L. destruct H as (a & b & E1 & A & E2 & B & ->).
  unfold extract_u16, bind, extract_bytes. cbn [data pos]. destruct (Nat.ltb_spec (length d) (p + 2)); [lia|].
  rewrite (slice2 _ _ _ _ E1 E2). cbn [ret].
  assert (E : unbe [a; b] = a * 256 + b) by (unfold unbe; cbn [fold_left]; lia). rewrite E. reflexivity.
Qed.
Lemma u16_got d p n b : byte_list d -> extract_u16 (mkbuf d p) = (Ok n, b) -> u16_at d p n /\ b = mkbuf d (p + 2).
Proof.
  intros HB E. apply bind_ok in E. destruct E as (v & b1 & E1 & E2). apply extract_bytes_ok in E1. cbn [data pos] in E1.
  destruct E1 as (L & -> & ->). cbn [ret] in E2. injection E2 as <- <-. split; [|reflexivity].
  destruct (nth_some d p ltac:(lia)) as [a Ea]. destruct (nth_some d (p + 1) ltac:(lia)) as [b Eb].
  exists a, b. rewrite (slice2 _ _ _ _ Ea Eb). unfold unbe. cbn [fold_left].
  repeat split; try assumption; try lia; eapply nth_byte; eassumption.
Qed.
Lemma slice_add {X} (d : list X) p n m : slice d p (n + m) = slice d p n ++ slice d (p + n) m.
Proof.
  unfold slice. rewrite <- skipn_skipn'. generalize (skipn p d). intros l. revert l.
  induction n as [|n IH]; intros l; [reflexivity|]. destruct l as [|x l]; cbn [skipn firstn Nat.add app].
  - rewrite !firstn_nil. reflexivity.
  - rewrite IH. reflexivity.
Qed.
Lemma u32_slice d p n : u32_at d p n -> unbe (slice d p 4) = n.
Proof.
  intros (hi & lo & (a & b & E1 & _ & E2 & _ & ->) & (a' & b' & E3 & _ & E4 & _ & ->) & ->).
  change 4%nat with (2 + 2)%nat. rewrite slice_add, (slice2 _ _ _ _ E1 E2), (slice2 _ _ _ _ E3 E4).
  unfold unbe. cbn [app fold_left]. lia.
Qed.
Lemma u32_slice_at d p : byte_list d -> (p + 4 <= length d)%nat -> u32_at d p (unbe (slice d p 4)).
Proof.
  intros B L. destruct (nth_some d p ltac:(lia)) as [a1 E1]. destruct (nth_some d (p + 1) ltac:(lia)) as [a2 E2].
  destruct (nth_some d (p + 2) ltac:(lia)) as [a3 E3]. destruct (nth_some d (p + 2 + 1) ltac:(lia)) as [a4 E4].
  change 4%nat with (2 + 2)%nat. rewrite slice_add, (slice2 _ _ _ _ E1 E2), (slice2 _ _ _ _ E3 E4).
  exists (a1 * 256 + a2), (a3 * 256 + a4). split; [|split].
  - exists a1, a2. repeat split; try assumption; eapply nth_byte; eassumption.
  - exists a3, a4. repeat split; try assumption; eapply nth_byte; eassumption.
  - unfold unbe. cbn [app fold_left]. lia.
Qed.
Lemma u32_at_end d p n : u32_at d p n -> (p + 4 <= length d)%nat.
Proof. intros (hi & lo & _ & H & _). apply u16_at_end in H. lia. Qed.

Lemma u16_as_read {A} d p n (f : N -> res A) v : u16_at d p n -> f n = Ok v ->
  extract_u16_as f (mkbuf d p) = (Ok v, mkbuf d (p + 2)).
Proof. intros H E. unfold extract_u16_as, bind. rewrite (u16_read _ _ _ H). unfold lift. rewrite E. reflexivity. Qed.
Lemma u16_as_got {A} d p (f : N -> res A) v b : byte_list d -> extract_u16_as f (mkbuf d p) = (Ok v, b) ->
  exists n, u16_at d p n /\ f n = Ok v /\ b = mkbuf d (p + 2).
Proof.
  intros B E. apply bind_ok in E. destruct E as (n & b1 & E1 & E2). apply (u16_got _ _ _ _ B) in E1. destruct E1 as [E1 ->].
  unfold lift in E2. injection E2 as E2 <-. eauto.
Qed.

(** ** The class field *)
Lemma land_15 n : N.land n 32767 = n mod 32768.
Proof. change 32767 with (N.ones 15). apply N.land_ones. Qed.
Lemma qclass_try_ok n k : qclass_try_from n = Ok k <-> qclass_code k = n mod 32768.
Proof.
  unfold qclass_try_from. rewrite land_15. generalize (n mod 32768). clear n. intros n. split.
  - intros E. destruct (assoc n _) as [q|] eqn:A in E; [|discriminate]. cbn [ok_or] in E. injection E as ->.
    apply assoc_in in A. cbn [In] in A. repeat (destruct A as [A|A]; [injection A as <- <-; reflexivity|]). destruct A.
  - intros <-. destruct k; reflexivity.
Qed.
Lemma rclass_from_code n : rclass_code (rclass_from n) = n mod 32768 /\ rclass_plain (rclass_from n).
Proof.
  unfold rclass_from. rewrite land_15. assert (L : n mod 32768 < 32768) by (apply N.mod_lt; lia). revert L.
  generalize (n mod 32768). clear n. intros n L. cbn [assoc].
  destruct (N.eqb_spec n 1) as [->|]; [split; [reflexivity|exact I]|].
  destruct (N.eqb_spec n 2) as [->|]; [split; [reflexivity|exact I]|].
  destruct (N.eqb_spec n 3) as [->|]; [split; [reflexivity|exact I]|].
  destruct (N.eqb_spec n 4) as [->|]; [split; [reflexivity|exact I]|].
  split; [reflexivity|]. cbn [rclass_plain]. lia.
Qed.
Lemma rclass_plain_inj k k' : rclass_plain k -> rclass_plain k' -> rclass_code k = rclass_code k' -> k = k'.
Proof. destruct k, k'; cbn; intros; try reflexivity; try discriminate; try lia. congruence. Qed.
Lemma rclass_parse c v : v < 65536 -> rclass_code (fst (rr_class_field_parse c v)) = v mod 32768 /\
  rclass_plain (fst (rr_class_field_parse c v)) /\ snd (rr_class_field_parse c v) = top_bit c v.
Proof.
  intros L. unfold rr_class_field_parse, top_bit. destruct (mdns c); cbn [andb].
  - rewrite (land_top v L). destruct (N.ltb_spec v 32768) as [H|H]; cbn [negb fst snd].
    + destruct (rclass_from_code v) as [E1 E2]. split; [exact E1|]. split; [exact E2|]. symmetry. apply N.leb_gt. lia.
    + destruct (rclass_from_code (N.land v 32767)) as [E1 E2]. rewrite land_15 in *.
      rewrite N.mod_mod in E1 by discriminate. split; [exact E1|]. split; [exact E2|]. symmetry. apply N.leb_le. lia.
  - destruct (rclass_from_code v) as [E1 E2]. cbn [fst snd]. auto.
Qed.
Lemma rclass_parse_iff c v k f : v < 65536 ->
  (rr_class_field_parse c v = (k, f) <-> rclass_code k = v mod 32768 /\ rclass_plain k /\ f = top_bit c v).
Proof.
  intros L. destruct (rclass_parse c v L) as (A & B & C). destruct (rr_class_field_parse c v) as [k' f']. cbn [fst snd] in *.
  split.
  - intros E. injection E as <- <-. auto.
  - intros (A' & B' & ->). rewrite C. f_equal. apply rclass_plain_inj; congruence.
Qed.

(** ** Questions *)
Lemma name_got d p v b : byte_list d -> (p <= length d)%nat -> extract_fqdn (mkbuf d p) = (Ok v, b) ->
  exists k, name_at d 191 p v k /\ b = mkbuf d k.
Proof.
  intros B I E. pose proof (keeps_fqdn (mkbuf d p) _ _ I E) as [D _]. cbn [data] in D. destruct b as [d' q']. cbn [data pos] in *. subst d'.
  apply (extract_fqdn_iff d p v q' B) in E. eauto.
Qed.
Lemma question_tail_iff c d k f q e : byte_list d ->
  question_tail c f (mkbuf d k) = (Ok q, e) ->
  exists v, q_name q = f /\ u16_at d k (qtype_code (q_type q)) /\ qdecodable c (q_type q) /\
    u16_at d (k + 2) v /\ qclass_code (q_class q) = v mod 32768 /\ q_unicast q = top_bit c v /\ e = mkbuf d (k + 4).
Proof.
  intros B E. unfold question_tail in E. apply bind_ok in E. destruct E as (t & b1 & E1 & E).
  apply (u16_as_got _ _ _ _ _ B) in E1. destruct E1 as (n & U1 & T & ->).
  destruct (qtype_faithful c) as (_ & F2 & _). destruct (F2 n t T) as [D <-].
  unfold top_bit. destruct (mdns c); cbn [andb].
  - apply bind_ok in E. destruct E as (v & b2 & E2 & E). apply (u16_got _ _ _ _ B) in E2. destruct E2 as [U2 ->].
    exists v. pose proof (u16_at_lt _ _ _ U2) as L. rewrite (land_top v L) in E.
    destruct (N.ltb_spec v 32768) as [H|H]; cbn [negb] in E; apply bind_ok in E; destruct E as (kl & b3 & E3 & E4);
      unfold lift in E3; injection E3 as E3 <-; cbn [ret] in E4; injection E4 as <- <-; cbn [q_name q_type q_class q_unicast];
      apply qclass_try_ok in E3.
    + repeat split; try assumption; [symmetry; apply N.leb_gt; lia|f_equal; lia].
    + rewrite land_15, N.mod_mod in E3 by discriminate. repeat split; try assumption; [symmetry; apply N.leb_le; lia|f_equal; lia].
  - apply bind_ok in E. destruct E as (kl & b2 & E2 & E). apply (u16_as_got _ _ _ _ _ B) in E2. destruct E2 as (v & U2 & K & ->).
    cbn [ret] in E. injection E as <- <-. exists v. cbn [q_name q_type q_class q_unicast]. apply qclass_try_ok in K.
    repeat split; try assumption. f_equal; lia.
Qed.
Lemma question_got c d p q b : byte_list d -> (p <= length d)%nat -> question_try_from c (mkbuf d p) = (Ok q, b) ->
  exists e, question_at c d p q e /\ b = mkbuf d e.
Proof.
  intros B I E. change (question_try_from c) with (f <- extract_fqdn ;; question_tail c f) in E.
  apply bind_ok in E. destruct E as (f & b1 & E1 & E). apply (name_got _ _ _ _ B I) in E1. destruct E1 as (k & N & ->).
  apply (question_tail_iff _ _ _ _ _ _ B) in E. destruct E as (v & <- & U1 & D & U2 & K & Z & ->).
  exists (k + 4)%nat. split; [|reflexivity]. exists k, v. repeat split; assumption.
Qed.
Lemma question_read c d p q e : question_at c d p q e -> question_try_from c (mkbuf d p) = (Ok q, mkbuf d e).
Proof.
  intros (k & v & N & U1 & D & U2 & K & Z & ->). unfold question_try_from, bind.
  rewrite (extract_fqdn_complete _ _ _ _ N). pose proof (proj1 (qtype_faithful c) _ D) as [_ T].
  rewrite (u16_as_read _ _ _ _ _ U1 T). pose proof (u16_at_lt _ _ _ U2) as L.
  destruct q as [f t kl u]. cbn [q_name q_type q_class q_unicast] in *. unfold top_bit in Z.
  replace (k + 4)%nat with (k + 2 + 2)%nat by lia.
  destruct (mdns c); cbn [andb] in Z.
  - rewrite (u16_read _ _ _ U2), (land_top v L). destruct (N.ltb_spec v 32768) as [H|H]; cbn [negb]; unfold lift.
    + rewrite (proj2 (qclass_try_ok v kl) K). cbn [ret]. subst u. destruct (N.leb_spec 32768 v); [lia|reflexivity].
    + rewrite (proj2 (qclass_try_ok (N.land v 32767) kl)). 2: rewrite land_15, N.mod_mod by discriminate; exact K.
      cbn [ret]. subst u. destruct (N.leb_spec 32768 v); [reflexivity|lia].
  - rewrite (u16_as_read _ _ _ _ _ U2 (proj2 (qclass_try_ok v kl) K)). cbn [ret]. subst u. reflexivity.
Qed.
Lemma question_at_end c d p q e : question_at c d p q e -> (p + 5 <= e <= length d)%nat.
Proof.
  intros (k & v & N & _ & _ & U & _ & _ & ->). apply name_at_end in N. apply u16_at_end in U. lia.
Qed.

(** ** Records *)
Lemma record_got c d p r b : byte_list d -> (p <= length d)%nat -> rr_try_from c (mkbuf d p) = (Ok r, b) ->
  exists e, record_at c d p r e /\ b = mkbuf d e.
Proof.
  intros B I E. unfold rr_try_from in E.
  apply bind_ok in E. destruct E as (f & b1 & E1 & E). apply (name_got _ _ _ _ B I) in E1. destruct E1 as (k & N & ->).
  apply bind_ok in E. destruct E as (t & b1 & E1 & E). apply (u16_as_got _ _ _ _ _ B) in E1. destruct E1 as (n & U1 & T & ->).
  destruct (rtype_faithful c) as (_ & F2 & _). destruct (F2 n t T) as [D <-].
  apply bind_ok in E. destruct E as (v & b1 & E1 & E). apply (u16_got _ _ _ _ B) in E1. destruct E1 as [U2 ->].
  apply bind_ok in E. destruct E as (tb & b1 & E1 & E). apply extract_bytes_ok in E1. cbn [data pos] in E1. destruct E1 as (L & -> & ->).
  apply bind_ok in E. destruct E as (len & b1 & E1 & E). apply (u16_got _ _ _ _ B) in E1. destruct E1 as [U3 ->].
  apply bind_ok in E. destruct E as (dt & b1 & E1 & E). pose proof (framed_ok _ _ _ _ _ E1) as [-> L2]. cbn [data pos] in *.
  cbn zeta in E. cbn [ret] in E. injection E as <- <-.
  replace (k + 2 + 2 + 4 + 2 + N.to_nat len)%nat with (k + 10 + N.to_nat len)%nat in * by lia.
  exists (k + 10 + N.to_nat len)%nat. split; [|reflexivity]. exists k, v, len.
  cbn [rr_name rr_type rr_class rr_flush rr_ttl rr_data].
  destruct (rclass_parse c v (u16_at_lt _ _ _ U2)) as (K1 & K2 & K3).
  refine (conj N (conj U1 (conj D (conj U2 (conj K1 (conj K2 (conj K3 (conj _ (conj _ (conj eq_refl (conj L2 _))))))))))).
  - replace (k + 4)%nat with (k + 2 + 2)%nat by lia. apply u32_slice_at; assumption.
  - replace (k + 8)%nat with (k + 2 + 2 + 4)%nat by lia. exact U3.
  - unfold framed, sub_buffer in E1. cbn [data pos] in E1.
    replace (k + 2 + 2 + 4 + 2 + N.to_nat len)%nat with (k + 10 + N.to_nat len)%nat in * by lia.
    destruct (Nat.ltb_spec (length d) (k + 10 + N.to_nat len)); [discriminate|].
    replace (k + 2 + 2 + 4 + 2)%nat with (k + 10)%nat in E1 by lia.
    destruct (rdata_from c t _) as [[x|x| |] b2]; try discriminate.
    apply bind_ok in E1. destruct E1 as (u & b3 & _ & E1). cbn [ret] in E1. injection E1 as <- _. reflexivity.
Qed.
Lemma record_read c d p r e : record_at c d p r e -> rr_try_from c (mkbuf d p) = (Ok r, mkbuf d e).
Proof.
  intros (k & v & len & N & U1 & D & U2 & K1 & K2 & Z & T & U3 & -> & L & Y). unfold rr_try_from, bind.
  rewrite (extract_fqdn_complete _ _ _ _ N). pose proof (proj1 (rtype_faithful c) _ D) as [_ W].
  rewrite (u16_as_read _ _ _ _ _ U1 W), (u16_read _ _ _ U2). unfold extract_bytes. cbn [data pos].
  destruct (Nat.ltb_spec (length d) (k + 2 + 2 + 4)) as [C|_]; [apply u16_at_end in U3; lia|].
  replace (k + 2 + 2)%nat with (k + 4)%nat by lia. rewrite (u32_slice _ _ _ T).
  replace (k + 4 + 4)%nat with (k + 8)%nat by lia. rewrite (u16_read _ _ _ U3).
  replace (k + 8 + 2)%nat with (k + 10)%nat by lia. unfold framed, sub_buffer. cbn [data pos].
  destruct (Nat.ltb_spec (length d) (k + 10 + N.to_nat len)) as [C|_]; [lia|].
  destruct (rdata_from c (rr_type r) _) as [[x|x| |] b2]; try discriminate. cbn [fst] in Y. injection Y as ->.
  unfold bind, advance. cbn [data pos]. destruct (Nat.ltb_spec (length d) (k + 10 + N.to_nat len)) as [C|_]; [lia|].
  cbn [ret]. cbn zeta.
  rewrite (proj2 (rclass_parse_iff c v (rr_class r) (rr_flush r) (u16_at_lt _ _ _ U2)) (conj K1 (conj K2 Z))).
  cbn [fst snd]. destruct r; reflexivity.
Qed.
Lemma record_at_end c d p r e : record_at c d p r e -> (p + 11 <= e <= length d)%nat.
Proof.
  intros (k & v & len & N & U1 & D & U2 & K1 & K2 & Z & T & U3 & -> & L & Y). apply name_at_end in N. lia.
Qed.

(** ** Sections *)
Section Sections.
Context {X : Type} (p : P X) (entry : bytes -> nat -> X -> nat -> Prop).
Hypothesis got : forall d q x b, byte_list d -> (q <= length d)%nat -> p (mkbuf d q) = (Ok x, b) ->
  exists e, entry d q x e /\ b = mkbuf d e.
Hypothesis read : forall d q x e, entry d q x e -> p (mkbuf d q) = (Ok x, mkbuf d e).
Hypothesis ends : forall d q x e, entry d q x e -> (q < e <= length d)%nat.
Lemma section_got d n : byte_list d -> forall q xs b, (q <= length d)%nat -> repeatP n p (mkbuf d q) = (Ok xs, b) ->
  exists e, consecutive (entry d) q xs e /\ b = mkbuf d e /\ length xs = n /\ (q <= e <= length d)%nat.
Proof.
  intros B. induction n as [|n IH]; intros q xs b L E; cbn [repeatP] in E.
  - cbn [ret] in E. injection E as <- <-. exists q. split; [constructor|]. split; [reflexivity|]. split; [reflexivity|lia].
  - apply bind_ok in E. destruct E as (x & b1 & E1 & E). apply (got _ _ _ _ B L) in E1. destruct E1 as (m & E1 & ->).
    pose proof (ends _ _ _ _ E1) as [M1 M2].
    apply bind_ok in E. destruct E as (l & b1 & E2 & E). apply (IH _ _ _ M2) in E2. destruct E2 as (e & C & -> & LL & M3).
    cbn [ret] in E. injection E as <- <-. exists e. split; [econstructor; [exact E1|exact M1|exact C]|]. split; [reflexivity|]. split; [cbn [length]; f_equal; exact LL|lia].
Qed.
Lemma section_read d q xs e : consecutive (entry d) q xs e ->
  repeatP (length xs) p (mkbuf d q) = (Ok xs, mkbuf d e).
Proof.
  induction 1 as [q|q x m xs e E L C IH]; cbn [length repeatP]; [reflexivity|].
  unfold bind. rewrite (read _ _ _ _ E), IH. reflexivity.
Qed.
Lemma section_end d q xs e : (q <= length d)%nat -> consecutive (entry d) q xs e -> (q <= e <= length d)%nat.
Proof. intros L C. induction C as [|q x m xs e E Q C IH]; [lia|]. apply ends in E. specialize (IH ltac:(lia)). lia. Qed.
End Sections.

(** ** Packets *)
Lemma fields_firstn d : (12 <= length d)%nat -> fields_of (firstn 12 d) = fields_of d.
Proof. intros L. do 12 (destruct d as [|? d]; [cbn [length] in L; lia|]). reflexivity. Qed.
Lemma header_bytes12 d : byte_list (firstn 12 d) -> (12 <= length d)%nat ->
  exists h, header_typed h /\ header_try_from (buf_from d) = (Ok h, mkbuf d 12) /\ view h = fields_of (firstn 12 d).
Proof.
  intros B L. assert (L12 : length (firstn 12 d) = 12%nat) by (rewrite firstn_length; lia).
  destruct (header_of_bytes _ B L12) as (h & T & E). exists h. split; [exact T|]. split.
  - pose proof (reads_header h [] (skipn 12 d) T) as R. unfold reads in R. rewrite E in R. cbn [app length] in R.
    rewrite firstn_skipn, L12 in R. exact R.
  - rewrite <- E. symmetry. apply fields_view, T.
Qed.
Lemma flags_inj f f' : raw f < 65536 -> raw f' < 65536 ->
  (forall o, In o [0; 1; 2; 7; 15] -> get_field o 1 f = get_field o 1 f') ->
  get_field 3 4 f = get_field 3 4 f' -> get_field 8 4 f = get_field 8 4 f' -> get_field 12 3 f = get_field 12 3 f' -> f = f'.
Proof.
  intros L L' E1 E2 E3 E4. assert (G : raw f = raw f').
  { apply N.bits_inj. intros i. destruct (N.ltb_spec i 16) as [H|H].
    - assert (S : forall o w, get_field o w f = get_field o w f' -> o <= i < o + w -> N.testbit (raw f) i = N.testbit (raw f') i).
      { intros o w E [A B]. apply (f_equal (fun n => N.testbit n (i - o))) in E. rewrite !get_bits in E.
        replace (i - o <? w) with true in E by (symmetry; apply N.ltb_lt; lia). cbn [andb] in E.
        replace (i - o + o) with i in E by lia. exact E. }
      assert (C : In i [0; 1; 2; 7; 15] \/ 3 <= i < 3 + 4 \/ 8 <= i < 8 + 4 \/ 12 <= i < 12 + 3) by (cbn [In]; lia).
      destruct C as [C|[C|[C|C]]]; [eapply (S i 1); [apply E1, C|lia]|eapply S; [exact E2|exact C]
                                   |eapply S; [exact E3|exact C]|eapply S; [exact E4|exact C]].
    - assert (Z : forall n, n < 65536 -> N.testbit n i = false).
      { intros n Ln. destruct (N.eq_dec n 0) as [->|Z]; [apply N.bits_0|]. apply N.bits_above_log2.
        apply N.log2_lt_pow2; [lia|]. eapply N.lt_le_trans; [exact Ln|]. change 65536 with (2 ^ 16). apply N.pow_le_mono_r; lia. }
      rewrite !Z by assumption. reflexivity. }
  destruct f, f'. cbn in G. congruence.
Qed.
Lemma bit_field_inj o f f' : negb (get_field o 1 f =? 0) = negb (get_field o 1 f' =? 0) -> get_field o 1 f = get_field o 1 f'.
Proof.
  intros E. apply N.bits_inj. intros i. rewrite !bit_of_field in E. rewrite !get_bits. destruct (N.ltb_spec i 1) as [H|H]; [|reflexivity].
  cbn [andb]. replace i with 0 by lia. cbn [N.add]. exact E.
Qed.
Lemma view_inj h h' : header_typed h -> header_typed h' -> view h = view h' -> h = h'.
Proof.
  intros T T' E. destruct T as (_ & T & _), T' as (_ & T' & _). unfold view in E.
  injection E as E1 E2 E3 E4 E5 E6 E7 E8 E9 E10 E11 E12 E13.
  assert (F : hflags h = hflags h').
  { apply flags_inj; try assumption. intros o [<-|[<-|[<-|[<-|[<-|[]]]]]]; apply bit_field_inj; assumption. }
  destruct h, h'. cbn in *. congruence.
Qed.

Lemma packet_read c d p e : packet_at c d p e -> packet_try_from_buf c (buf_from d) = (Ok p, mkbuf d e).
Proof.
  intros (L & B & T & V & (C1 & C2 & C3 & C4) & e1 & e2 & e3 & S1 & S2 & S3 & S4).
  destruct (header_bytes12 d B L) as (h & Th & Eh & Vh). rewrite fields_firstn in V, Vh by exact L.
  assert (h = p_header p) as -> by (apply view_inj; congruence). clear Vh Th.
  rewrite <- V in C1, C2, C3, C4. cbn [view v_qd v_an v_ns v_ar] in *.
  unfold packet_try_from_buf. unfold bind at 1. rewrite Eh.
  unfold bind. rewrite <- C1, Nat2N.id, (section_read (question_try_from c) (question_at c) (question_read c) _ _ _ _ S1).
  rewrite <- C2, Nat2N.id, (section_read (rr_try_from c) (record_at c) (record_read c) _ _ _ _ S2).
  rewrite <- C3, Nat2N.id, (section_read (rr_try_from c) (record_at c) (record_read c) _ _ _ _ S3).
  rewrite <- C4, Nat2N.id, (section_read (rr_try_from c) (record_at c) (record_read c) _ _ _ _ S4).
  destruct p; reflexivity.
Qed.
Lemma question_ends c d q x e : question_at c d q x e -> (q < e <= length d)%nat.
Proof. intros H. apply question_at_end in H. lia. Qed.
Lemma record_ends c d q x e : record_at c d q x e -> (q < e <= length d)%nat.
Proof. intros H. apply record_at_end in H. lia. Qed.
Lemma packet_got c d p b : byte_list d -> packet_try_from_buf c (buf_from d) = (Ok p, b) ->
  exists e, packet_at c d p e /\ b = mkbuf d e.
Proof.
  intros B E. unfold packet_try_from_buf in E. apply bind_ok in E. destruct E as (h & b1 & E1 & E).
  assert (L : (12 <= length d)%nat).
  { destruct (le_lt_dec 12 (length d)) as [L|L]; [exact L|]. exfalso. clear E B.
    do 12 (destruct d as [|? d]; [discriminate|]). cbn [length] in L. lia. }
  assert (B12 : byte_list (firstn 12 d)) by (apply firstn_byte_list, B).
  destruct (header_bytes12 d B12 L) as (h' & Th & Eh & Vh). rewrite Eh in E1. injection E1 as <- <-.
  apply bind_ok in E. destruct E as (qs & b1 & E1 & E).
  apply (section_got _ _ (question_got c) (question_read c) (question_ends c) d _ B _ _ _ L) in E1. destruct E1 as (e1 & S1 & -> & L1 & M1).
  apply bind_ok in E. destruct E as (an & b1 & E1 & E).
  apply (section_got _ _ (record_got c) (record_read c) (record_ends c) d _ B _ _ _ (proj2 M1)) in E1. destruct E1 as (e2 & S2 & -> & L2 & M2).
  apply bind_ok in E. destruct E as (au & b1 & E1 & E).
  apply (section_got _ _ (record_got c) (record_read c) (record_ends c) d _ B _ _ _ (proj2 M2)) in E1. destruct E1 as (e3 & S3 & -> & L3 & M3).
  apply bind_ok in E. destruct E as (ad & b1 & E1 & E).
  apply (section_got _ _ (record_got c) (record_read c) (record_ends c) d _ B _ _ _ (proj2 M3)) in E1. destruct E1 as (e4 & S4 & -> & L4 & M4).
  cbn [ret] in E. injection E as <- <-. exists e4. split; [|reflexivity].
  split; [exact L|]. split; [exact B12|]. cbn [p_header p_questions p_answers p_authorities p_additionals].
  split; [exact Th|]. split; [exact Vh|]. rewrite fields_firstn in Vh by exact L. rewrite <- Vh. cbn [view v_qd v_an v_ns v_ar].
  split; [repeat split; lia|]. exists e1, e2, e3. repeat split; assumption.
Qed.
Lemma packet_iff c d p : byte_list d -> (packet_try_from c d = Ok p <-> exists e, packet_at c d p e).
Proof.
  intros B. unfold packet_try_from. split.
  - intros E. destruct (packet_try_from_buf c (buf_from d)) as [r b] eqn:Eb. cbn [fst] in E. subst r.
    apply (packet_got _ _ _ _ B) in Eb. destruct Eb as (e & H & _). eauto.
  - intros [e H]. rewrite (packet_read _ _ _ _ H). reflexivity.
Qed.

(** ** More octets behind *)
Lemma u16_at_ext d x p n : u16_at d p n -> u16_at (d ++ x) p n.
Proof.
  intros (a & b & E1 & A & E2 & B & E). exists a, b.
  rewrite !nth_error_app1 by (apply nth_error_Some; congruence). auto.
Qed.
Lemma u32_at_ext d x p n : u32_at d p n -> u32_at (d ++ x) p n.
Proof. intros (hi & lo & A & B & E). exists hi, lo. auto using u16_at_ext. Qed.
Lemma question_at_ext c d x p q e : question_at c d p q e -> question_at c (d ++ x) p q e.
Proof.
  intros (k & v & N & U1 & D & U2 & R). exists k, v.
  split; [apply name_at_ext, N|]. split; [apply u16_at_ext, U1|]. split; [exact D|]. split; [apply u16_at_ext, U2|exact R].
Qed.
Lemma record_at_ext c d x p r e : record_at c d p r e -> record_at c (d ++ x) p r e.
Proof.
  intros (k & v & len & N & U1 & D & U2 & K1 & K2 & Z & T & U3 & E & L & Y). exists k, v, len.
  split; [apply name_at_ext, N|]. split; [apply u16_at_ext, U1|]. split; [exact D|]. split; [apply u16_at_ext, U2|].
  split; [exact K1|]. split; [exact K2|]. split; [exact Z|]. split; [apply u32_at_ext, T|]. split; [apply u16_at_ext, U3|].
  split; [exact E|]. split; [rewrite app_length; lia|]. rewrite firstn_app. replace (e - length d)%nat with 0%nat by lia.
  cbn [firstn]. rewrite app_nil_r. exact Y.
Qed.
Lemma consecutive_mono {X} (R R' : nat -> X -> nat -> Prop) p xs e : (forall p x e, R p x e -> R' p x e) ->
  consecutive R p xs e -> consecutive R' p xs e.
Proof. intros H. induction 1; [constructor|]. econstructor; [apply H; eassumption|assumption|assumption]. Qed.
Lemma packet_at_ext c d x p e : packet_at c d p e -> packet_at c (d ++ x) p e.
Proof.
  intros (L & B & T & V & C & e1 & e2 & e3 & S1 & S2 & S3 & S4).
  assert (F : firstn 12 (d ++ x) = firstn 12 d).
  { rewrite firstn_app. replace (12 - length d)%nat with 0%nat by lia. cbn [firstn]. apply app_nil_r. }
  assert (L' : (12 <= length (d ++ x))%nat) by (rewrite app_length; lia).
  split; [exact L'|]. rewrite F. split; [exact B|]. split; [exact T|]. split; [exact V|].
  rewrite <- (fields_firstn (d ++ x)), F, (fields_firstn d) by assumption. split; [exact C|].
  exists e1, e2, e3. repeat split; (eapply consecutive_mono; [|eassumption]); intros; [apply question_at_ext|apply record_at_ext..]; assumption.
Qed.
