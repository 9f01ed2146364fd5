(** * Facts about questions that are repeated. *)
From Coq Require Import Lia ZifyBool ZifyNat ZifyN.
From Verif Require Import Base Buffer Fqdn Header Types RDataBasic Bitmap Svcb RDataSec RData Packet BaseFacts BufferFacts NameSpec FqdnFacts FqdnLoop CompressSpec ChunkFacts
  CodeSpec HeaderSpec RecordFacts WireSpec WireFacts PacketProps RecordSpec EchoSpec.

Definition holds (d : bytes) (p : nat) (bs : bytes) : Prop := skipn p d = bs ++ skipn (p + length bs) d.
Lemma skipn_add {X} (d : list X) a b : skipn (a + b) d = skipn b (skipn a d).
Proof. revert d. induction a as [|a IH]; intros d; [reflexivity|]. destruct d; [rewrite !skipn_nil; reflexivity|apply IH]. Qed.
Lemma holds_app d p a b : holds d p a -> holds d (p + length a) b -> holds d p (a ++ b).
Proof. unfold holds. intros A B. rewrite A, B, app_length, Nat.add_assoc, app_assoc. reflexivity. Qed.
Lemma holds_slice d p n : (p + n <= length d)%nat -> holds d p (slice d p n).
Proof. intros L. unfold holds. rewrite slice_length by exact L. unfold slice. rewrite skipn_add, firstn_skipn. reflexivity. Qed.
Lemma holds_one d p x : nth_error d p = Some x -> holds d p [x].
Proof.
  unfold holds. cbn [length app]. revert d. induction p as [|p IH]; intros d E; destruct d as [|y d]; try discriminate E; cbn in E |- *.
  - injection E as ->. reflexivity.
  - apply IH, E.
Qed.
Lemma holds_between d p bs : holds d p bs -> (p + length bs <= length d)%nat -> between p (p + length bs) d = bs.
Proof. unfold holds, between, slice. intros H L. rewrite H. replace (p + length bs - p)%nat with (length bs) by lia. apply firstn_app_exact || (rewrite firstn_app, Nat.sub_diag, firstn_O, app_nil_r; apply firstn_all). Qed.
Lemma fold_front f : forall b, fold_left (fun buf l => if nonempty l then buf ++ len8 (length l) :: l else buf) f b = b ++ fold_left (fun buf l => if nonempty l then buf ++ len8 (length l) :: l else buf) f ([] : bytes).
Proof.
  induction f as [|l f IH]; intros b; cbn [fold_left]; [rewrite app_nil_r; reflexivity|]. destruct (nonempty l); [|apply IH].
  rewrite IH, (IH ([] ++ _)). cbn [app]. rewrite <- app_assoc. reflexivity.
Qed.
Lemma bytes_cons l f : (1 <= length l)%nat -> fqdn_to_bytes (l :: f) = len8 (length l) :: l ++ fqdn_to_bytes f.
Proof.
  intros L. unfold fqdn_to_bytes. cbn [fold_left]. destruct l as [|x l]; [cbn in L; lia|]. cbn [nonempty]. rewrite fold_front. cbn [app]. rewrite <- app_assoc. reflexivity.
Qed.
Lemma spelled_holds d p ls q : spelled d p ls q -> holds d p (fqdn_to_bytes ls) /\ q = (p + length (fqdn_to_bytes ls))%nat.
Proof.
  induction 1 as [p E|p l ls q Hl _ IH]; [split; [apply holds_one, E|reflexivity]|].
  destruct Hl as (n & E & R & L & El). destruct IH as [IH1 IH2].
  assert (K : length l = N.to_nat n) by (rewrite El; apply slice_length; exact L).
  rewrite bytes_cons by lia. split.
  - change (len8 (length l) :: l ++ fqdn_to_bytes ls) with ([len8 (length l)] ++ (l ++ fqdn_to_bytes ls)). apply holds_app.
    + apply holds_one. rewrite E. f_equal. unfold len8, u8 in *. rewrite K, N2Nat.id. symmetry. apply N.mod_small; lia.
    + cbn [length]. apply holds_app; [rewrite El; apply holds_slice; exact L|exact IH1].
  - rewrite IH2. cbn [length]. rewrite app_length. lia.
Qed.
Lemma spelled_name d p ls q : spelled d p ls q -> name_at d 191 p ls q.
Proof. induction 1; [apply name_root; assumption|eapply name_label; eassumption]. Qed.
Lemma spelled_full d p ls q : spelled d p ls q -> Forall (fun l : bytes => (1 <= length l)%nat) ls.
Proof. induction 1 as [|p l ls q (n & _ & R & L & El) _ IH]; constructor; [rewrite El, slice_length by exact L; lia|exact IH]. Qed.
Lemma holds_u16 d p v : u16_at d p v -> holds d p (be 2 v) /\ v < 65536.
Proof.
  intros (a & b & Ea & Ra & Eb & Rb & ->). split; [|lia].
  assert (X : be 2 (a * 256 + b) = [a] ++ [b]).
  { unfold be. cbn [app]. rewrite N.div_add_l, (N.div_small b), N.add_0_r by lia. rewrite (N.mod_small a) by lia. rewrite N.add_comm, N.mod_add, N.mod_small by lia. reflexivity. }
  rewrite X. apply holds_app; apply holds_one; assumption.
Qed.
Lemma class_same c q v : v < 65536 -> mdns c = true \/ v < 32768 -> qclass_code (q_class q) = v mod 32768 -> q_unicast q = top_bit c v -> question_class_field c q = v.
Proof.
  unfold question_class_field, top_bit. intros B M E U. rewrite U. destruct (mdns c); cbn [andb].
  - destruct (N.leb_spec 32768 v).
    + rewrite lor_top by (rewrite E; apply N.mod_lt; discriminate). rewrite E. assert (v / 32768 = 1) by (symmetry; apply (N.div_unique v 32768 1 (v - 32768)); lia).
      rewrite (N.div_mod v 32768) at 2 by discriminate. rewrite H0. lia.
    + rewrite E. apply N.mod_small; lia.
  - destruct M as [M|M]; [discriminate|]. rewrite E. apply N.mod_small; lia.
Qed.
Lemma u16_once d p v w : u16_at d p v -> u16_at d p w -> v = w.
Proof. intros (a & b & A & _ & B & _ & ->) (a' & b' & A' & _ & B' & _ & ->). congruence. Qed.
Lemma question_holds c d p q e e' : byte_list d -> question_at c d p q e' -> spelled_question c d p q e -> holds d p (question_to_bytes c q) /\ e = (p + length (question_to_bytes c q))%nat /\ e' = e /\ (e <= length d)%nat.
Proof.
  intros B (k & v & N & T & _ & V & C & U & ->) (k' & v' & Sp & V' & M & ->).
  destruct (name_at_unique d p _ _ _ _ B N (spelled_name _ _ _ _ Sp)) as [_ <-]. rewrite (u16_once _ _ _ _ V' V) in *.
  apply spelled_holds in Sp. destruct Sp as [H1 H2]. destruct (holds_u16 _ _ _ T) as [H3 _]. destruct (holds_u16 _ _ _ V) as [H4 R].
  unfold question_to_bytes. rewrite (class_same c q v R M C U). split; [|split; [rewrite !app_length, !be_length; lia|split; [reflexivity|]]].
  - apply holds_app; [exact H1|]. rewrite <- H2. apply holds_app; [exact H3|]. rewrite be_length. exact H4.
  - destruct V as (a & b & _ & _ & Eb & _). assert (k + 2 + 1 < length d)%nat by (apply nth_error_Some; congruence). lia.
Qed.
Lemma questions_hold c d qs : byte_list d -> forall p e e', consecutive (question_at c d) p qs e' -> consecutive (spelled_question c d) p qs e -> (p <= length d)%nat ->
  holds d p (flat_map (question_to_bytes c) qs) /\ e = (p + length (flat_map (question_to_bytes c) qs))%nat /\ (e <= length d)%nat.
Proof.
  intros B. induction qs as [|q qs IH]; intros p e e' A S L.
  - inversion S; subst. cbn. split; [|lia]. unfold holds. rewrite Nat.add_0_r. reflexivity.
  - inversion A as [|? ? m1 ? ? Q1 _ A1]; subst. inversion S as [|? ? m2 ? ? Q2 _ S1]; subst.
    destruct (question_holds c d p q m2 m1 B Q1 Q2) as (H & E & Em & Lm). subst m1. destruct (IH m2 e e' A1 S1 Lm) as (H2 & E2 & L2). cbn [flat_map].
    split; [apply holds_app; [exact H|rewrite <- E; exact H2]|]. rewrite app_length. split; [lia|exact L2].
Qed.
Lemma plain_echo c d p r out e : byte_list d -> packet_try_from c d = Ok p -> consecutive (spelled_question c d) 12 (p_questions p) e -> p_questions r = p_questions p ->
  packet_to_bytes c r = Ok out -> between 12 e out = between 12 e d.
Proof.
  intros B E S Q W. apply (packet_iff c d p B) in E. destruct E as (e4 & L12 & _ & _ & _ & _ & e1 & _ & _ & CQ & _).
  destruct (questions_hold c d _ B 12 e e1 CQ S L12) as (H & -> & L). rewrite (holds_between d 12 _ H L).
  unfold packet_to_bytes in W. apply rbind_ok in W. destruct W as (x & _ & W). apply rbind_ok in W. destruct W as (a & _ & W). apply rbind_ok in W. destruct W as (n & _ & W). apply rbind_ok in W. destruct W as (x2 & _ & W).
  apply (f_equal (fun r => match r with Ok y => y | _ => out end)) in W. subst out. rewrite Q. unfold between.
  replace (12 + length (flat_map (question_to_bytes c) (p_questions p)) - 12)%nat with (length (flat_map (question_to_bytes c) (p_questions p))) by lia.
  rewrite <- (patched_length r) at 1. apply slice_exact.
Qed.
(** ** The first name of a compressed message is spelled out *)
Lemma fresh_name h U f : no_collision h U -> suffixes_in U f -> Forall (fun l : bytes => (1 <= length l)%nat) f -> forall m off,
  (forall k o, names_get k m = Some o -> exists s, U s /\ h s = k /\ (length f < length s)%nat) ->
  exists m', fqdn_to_bytes_compressed h f m off = (fqdn_to_bytes f, m') /\ (f <> [] -> names_get (h f) m' = Some off) /\
    forall k o, names_get k m = Some o -> names_get k m' = Some o.
Proof.
  intros NC. induction f as [|l f IH]; intros SU F m off D; cbn [fqdn_to_bytes_compressed].
  - exists m. split; [reflexivity|]. split; [congruence|auto].
  - assert (Uf : U (l :: f)) by (apply (SU [] (l :: f)); [reflexivity|discriminate]).
    destruct (names_get (h (l :: f)) m) as [o|] eqn:G.
    + destruct (D _ _ G) as (s & Us & Hs & L). apply NC in Hs; [subst s; lia|assumption|assumption].
    + apply Forall_cons_iff in F. destruct F as [L1 F].
      destruct (IH (suffixes_tl U _ _ SU) F (names_insert (h (l :: f)) off m) (off + (length l + 1))%nat) as (m' & E & _ & K).
      * intros k o. unfold names_insert; cbn [names_get]. destruct (N.eqb_spec k (h (l :: f))) as [->|]; intros Ek.
        -- exists (l :: f). split; [exact Uf|]. split; [reflexivity|]. cbn; lia.
        -- destruct (D _ _ Ek) as (s & A & B & C). exists s. cbn in *. split; [exact A|]. split; [exact B|]. lia.
      * rewrite E. exists m'. rewrite bytes_cons by exact L1. split; [reflexivity|]. split.
        -- intros _. apply K. unfold names_insert; cbn [names_get]. rewrite N.eqb_refl. reflexivity.
        -- intros k o Ek. apply K. unfold names_insert; cbn [names_get]. destruct (N.eqb_spec k (h (l :: f))) as [->|]; [congruence|exact Ek].
Qed.
Lemma first_name h f off : hash_separates h [f] -> Forall (fun l : bytes => (1 <= length l)%nat) f ->
  exists m', fqdn_to_bytes_compressed h f [] off = (fqdn_to_bytes f, m') /\ (f <> [] -> names_get (h f) m' = Some off).
Proof.
  intros HS F. destruct (fresh_name h (tail_of [f]) f HS) with (m := @nil (N * nat)) (off := off) as (m' & E & G & _).
  - apply tail_of_suffixes. left; reflexivity.
  - exact F.
  - intros k o X; discriminate X.
  - exists m'. auto.
Qed.
Lemma questions_app c h qs : forall w m, exists x, fst (questions_compressed c h qs w m) = w ++ x.
Proof.
  induction qs as [|q qs IH]; intros w m; cbn [questions_compressed]; [exists []; rewrite app_nil_r; reflexivity|].
  destruct (question_to_bytes_compressed c h q m (length w)) as [b m']. destruct (IH (w ++ b) m') as [x E]. exists (b ++ x). rewrite E, app_assoc. reflexivity.
Qed.
Lemma records_app c h rs : forall w m w' m', records_compressed c h rs w m = Ok (w', m') -> exists x, w' = w ++ x.
Proof.
  induction rs as [|r rs IH]; intros w m w' m' E; cbn [records_compressed] in E; [injection E as <- <-; exists []; rewrite app_nil_r; reflexivity|].
  apply rbind_ok in E. destruct E as ([b m1] & _ & E). cbn [fst snd] in E. apply IH in E. destruct E as [x ->]. exists (b ++ x). rewrite app_assoc. reflexivity.
Qed.
Lemma compressed_start c h r out q qs : p_questions r = q :: qs -> hash_separates h [q_name q] -> Forall (fun l : bytes => (1 <= length l)%nat) (q_name q) ->
  packet_to_bytes_compressed c h r = Ok out -> exists x, out = header_to_bytes (p_header r) ++ question_to_bytes c q ++ x.
Proof.
  unfold packet_to_bytes_compressed. intros Q HS F E. rewrite Q in E. cbn [questions_compressed] in E. unfold question_to_bytes_compressed in E.
  destruct (first_name h (q_name q) (length (header_to_bytes (p_header r))) HS F) as (m' & E1 & _). rewrite E1 in E.
  set (w := header_to_bytes (p_header r) ++ _) in E. destruct (questions_app c h qs w m') as [x Ex]. destruct (questions_compressed c h qs w m') as [w1 m1]. cbn [fst] in Ex.
  apply rbind_ok in E. destruct E as ([w2 m2] & E2 & E). cbn [fst snd] in *. apply rbind_ok in E. destruct E as ([w3 m3] & E3 & E). cbn [fst snd] in *. apply rbind_ok in E. destruct E as ([w4 m4] & E4 & E). cbn [fst snd] in *.
  injection E as <-. apply records_app in E2, E3, E4. destruct E2 as [x2 ->], E3 as [x3 ->], E4 as [x4 ->]. subst w1 w. unfold question_to_bytes.
  exists (x ++ x2 ++ x3 ++ x4). rewrite <- !app_assoc. reflexivity.
Qed.
Lemma compressed_echo c h d p r out q e : byte_list d -> packet_try_from c d = Ok p -> head (p_questions p) = Some q -> spelled_question c d 12 q e ->
  head (p_questions r) = Some q -> hash_separates h [q_name q] -> packet_to_bytes_compressed c h r = Ok out -> between 12 e out = between 12 e d.
Proof.
  intros B E HQ S HR HS W. apply (packet_iff c d p B) in E. destruct E as (e4 & L12 & _ & _ & _ & _ & e1 & _ & _ & CQ & _).
  destruct (p_questions p) as [|q' qs]; [discriminate|]. injection HQ as ->. inversion CQ as [|? ? m1 ? ? Q1 _ _]; subst.
  destruct (question_holds c d 12 q e m1 B Q1 S) as (H & -> & -> & L). rewrite (holds_between d 12 _ H L).
  destruct (p_questions r) as [|q' qs'] eqn:Er; [discriminate|]. injection HR as ->. destruct S as (k & v & Sp & _).
  destruct (compressed_start c h r out q qs' Er HS (spelled_full _ _ _ _ Sp) W) as [x ->]. unfold between.
  replace (12 + length (question_to_bytes c q) - 12)%nat with (length (question_to_bytes c q)) by lia. apply (slice_exact (header_to_bytes (p_header r))).
Qed.
(** The owner of the first record, when it is the name of the only question. *)
Lemma answer_pointer c h r out q a : p_questions r = [q] -> hash_separates h [q_name q] -> Forall (fun l : bytes => (1 <= length l)%nat) (q_name q) -> q_name q <> [] ->
  head (records_of r) = Some a -> rr_name a = q_name q -> packet_to_bytes_compressed c h r = Ok out ->
  exists x, out = header_to_bytes (p_header r) ++ question_to_bytes c q ++ [192; 12] ++ x.
Proof.
  unfold packet_to_bytes_compressed. intros Q HS F NE HA AN E. rewrite Q in E. cbn [questions_compressed] in E. unfold question_to_bytes_compressed in E.
  destruct (first_name h (q_name q) (length (header_to_bytes (p_header r))) HS F) as (m' & E1 & G). rewrite E1 in E. specialize (G NE). change (length (header_to_bytes (p_header r))) with 12%nat in G.
  set (w := header_to_bytes (p_header r) ++ _) in E.
  assert (R : forall rs w w' m2, head rs = Some a -> records_compressed c h rs w m' = Ok (w', m2) -> exists x, w' = w ++ [192; 12] ++ x).
  { intros [|a' rs] u w' m2 X Y; [discriminate X|]. injection X as ->. cbn [records_compressed] in Y. apply rbind_ok in Y. destruct Y as ([b m3] & Y1 & Y2). cbn [fst snd] in Y2.
    apply records_app in Y2. destruct Y2 as [x ->]. unfold rr_to_bytes_compressed in Y1. rewrite AN in Y1. destruct (q_name q) as [|l f]; [congruence|]. cbn [fqdn_to_bytes_compressed] in Y1. rewrite G in Y1. cbv zeta in Y1.
    apply rbind_ok in Y1. destruct Y1 as ([db m4] & _ & Y1). apply (f_equal (fun r => match r with Ok y => fst y | _ => b end)) in Y1. cbn [fst] in Y1. subst b.
    change (pointer_bytes 12) with [192; 12]. eexists. rewrite <- !app_assoc. reflexivity. }
  apply rbind_ok in E. destruct E as ([w2 m2] & E2 & E). cbn [fst snd] in *. apply rbind_ok in E. destruct E as ([w3 m3] & E3 & E). cbn [fst snd] in *. apply rbind_ok in E. destruct E as ([w4 m4] & E4 & E). cbn [fst snd] in *.
  injection E as <-. unfold records_of in HA. unfold question_to_bytes.
  assert (Fin : forall v y, v = w ++ [192; 12] ++ y -> exists x, v = header_to_bytes (p_header r) ++ (fqdn_to_bytes (q_name q) ++ be 2 (qtype_code (q_type q)) ++ be 2 (question_class_field c q)) ++ [192; 12] ++ x).
  { intros v y ->. exists y. subst w. rewrite <- !app_assoc. reflexivity. }
  destruct (p_answers r) as [|a1 rs1] eqn:A1.
  - cbn [records_compressed] in E2. injection E2 as <- <-. destruct (p_authorities r) as [|a2 rs2] eqn:A2.
    + cbn [records_compressed] in E3. injection E3 as <- <-. cbn [app] in HA. destruct (R _ _ _ _ HA E4) as [x X]. apply (Fin _ x X).
    + destruct (R (a2 :: rs2) _ _ _ HA E3) as [x ->]. apply records_app in E4. destruct E4 as [x4 ->]. apply (Fin _ (x ++ x4)). rewrite <- !app_assoc. reflexivity.
  - destruct (R (a1 :: rs1) _ _ _ HA E2) as [x ->]. apply records_app in E3, E4. destruct E3 as [x3 ->], E4 as [x4 ->]. apply (Fin _ (x ++ x3 ++ x4)). rewrite <- !app_assoc. reflexivity.
Qed.
Lemma id_octets c d p : byte_list d -> packet_try_from c d = Ok p -> exists a b, be 2 (id (p_header p)) = [a; b] /\ between 0 2 d = [a; b].
Proof.
  intros B E. apply (packet_iff c d p B) in E. destruct E as (e4 & L & _ & _ & V & _). apply (f_equal v_id) in V. cbn [view v_id fields_of] in V.
  destruct d as [|a [|b d]]; [cbn in L; lia..|]. exists a, b. split; [|reflexivity].
  apply Forall_cons_iff in B. destruct B as [Ra B]. apply Forall_cons_iff in B. destruct B as [Rb _].
  change (id (p_header p) = a * 256 + b) in V. rewrite V. unfold be. cbn [app]. rewrite N.div_add_l, (N.div_small b), N.add_0_r by (assumption || discriminate).
  rewrite (N.mod_small a) by assumption. rewrite N.add_comm, N.mod_add, N.mod_small by (assumption || discriminate). reflexivity.
Qed.
Lemma plain_id c p out : packet_to_bytes c p = Ok out -> between 0 2 out = be 2 (id (p_header p)).
Proof.
  unfold packet_to_bytes. intros W. apply rbind_ok in W. destruct W as (x & _ & W). apply rbind_ok in W. destruct W as (a & _ & W). apply rbind_ok in W. destruct W as (n & _ & W). apply rbind_ok in W. destruct W as (x2 & _ & W).
  apply (f_equal (fun r => match r with Ok y => y | _ => out end)) in W. subst out. reflexivity.
Qed.
Lemma compressed_id c h p out : packet_to_bytes_compressed c h p = Ok out -> between 0 2 out = be 2 (id (p_header p)).
Proof.
  unfold packet_to_bytes_compressed. intros E. destruct (questions_app c h (p_questions p) (header_to_bytes (p_header p)) []) as [x X]. destruct (questions_compressed c h (p_questions p) (header_to_bytes (p_header p)) []) as [w0 m0].
  apply rbind_ok in E. destruct E as ([w2 m2] & E2 & E). cbn [fst snd] in *. apply rbind_ok in E. destruct E as ([w3 m3] & E3 & E). cbn [fst snd] in *. apply rbind_ok in E. destruct E as ([w4 m4] & E4 & E). cbn [fst snd] in *.
  apply (f_equal (fun r => match r with Ok y => y | _ => out end)) in E. subst out. apply records_app in E2, E3, E4. destruct E2 as [x2 ->], E3 as [x3 ->], E4 as [x4 ->]. subst w0. reflexivity.
Qed.
