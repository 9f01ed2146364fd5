(** * C127: [==] compares what is sent *)
From Coq Require Import Lia ZifyBool ZifyNat ZifyN Permutation.
From Verif Require Import Base Buffer Fqdn Header Types RDataBasic RDataSec Svcb Bitmap RData Packet BaseFacts FqdnFacts CodeSpec RDataSpec RDataReads CompressSpec ChunkFacts
  RecordSpec HeaderSpec PacketFacts ObjectSpec ObjectFacts Api Equality EqualityFacts PropName PropRecord PropPacket PropCut PropTrust.

(** Two values say the same: all parts are the same, but for the order in which a map of EDNS options happens to list its entries. *)
Definition same_data (d d' : rdata) : Prop := match d, d' with DOPT m, DOPT m' => Permutation m m' | _, _ => d = d' end.
Definition same_rr (r r' : rr) : Prop :=
  rr_name r = rr_name r' /\ rr_type r = rr_type r' /\ rr_flush r = rr_flush r' /\ rr_class r = rr_class r' /\ rr_ttl r = rr_ttl r' /\ same_data (rr_data r) (rr_data r').
Definition same_packet (p p' : packet) : Prop :=
  p_header p = p_header p' /\ p_questions p = p_questions p' /\ Forall2 same_rr (p_answers p) (p_answers p') /\ Forall2 same_rr (p_authorities p) (p_authorities p') /\
  Forall2 same_rr (p_additionals p) (p_additionals p').
(** What every [HashMap] is: it has each key once. *)
Definition a_map (d : rdata) : Prop := match d with DOPT m => NoDup (map fst m) | _ => True end.
Definition maps_in (p : packet) : Prop := Forall (fun r => a_map (rr_data r)) (records_of p).

Lemma opt_get_in k v m : NoDup (map fst m) -> (opt_get k m = Some v <-> In (k, v) m).
Proof.
  induction m as [|(k', v') m IH]; intros Nd; cbn [opt_get]; [split; [discriminate|intros []]|]. cbn [map fst] in Nd. inversion Nd as [|? ? Ni Nd']; subst.
  destruct (N.eqb_spec k k') as [<-|Ne].
  - split; [intros [= <-]; left; reflexivity|]. intros [[= <-]|I]; [reflexivity|]. destruct Ni. apply in_map_iff. exists (k, v). split; [reflexivity|exact I].
  - rewrite (IH Nd'). split; [right; assumption|]. intros [[= -> _]|I]; [congruence|exact I].
Qed.
Lemma opt_eqb_iff m m' : NoDup (map fst m) -> NoDup (map fst m') -> (opt_eqb m m' = true <-> Permutation m m').
Proof.
  intros Nm Nm'. unfold opt_eqb. rewrite andb_true_iff, Nat.eqb_eq, forallb_forall. split.
  - intros (L & H). apply NoDup_Permutation_bis; [exact (NoDup_map_inv _ _ Nm)|lia|]. intros (k, v) I. apply H in I. cbn [fst snd] in I. apply (option_eqb_iff bytes_eqb bytes_iff) in I. apply opt_get_in in I; assumption.
  - intros P. split; [exact (Permutation_length P)|]. intros (k, v) I. apply (option_eqb_iff bytes_eqb bytes_iff). cbn [fst snd]. apply opt_get_in; [exact Nm'|]. exact (Permutation_in _ P I).
Qed.
Lemma rdata_eqb_iff d d' : a_map d -> a_map d' -> (rdata_eqb d d' = true <-> same_data d d').
Proof.
  intros M M'. destruct d, d'; cbn [rdata_eqb same_data]; try (split; discriminate);
    try (match goal with |- ?f ?x ?y = true <-> _ => let D := fresh "D" in assert (D : decides f) by auto with eqbs; rewrite (D x y); split; congruence end).
  apply opt_eqb_iff; assumption.
Qed.
Lemma rr_eqb_iff r r' : a_map (rr_data r) -> a_map (rr_data r') -> (rr_eqb r r' = true <-> same_rr r r').
Proof. intros M M'. unfold rr_eqb, same_rr. rewrite !andb_true_iff, (fqdn_iff _ _), (rtype_iff _ _), (bool_iff _ _), (rclass_iff _ _), (N_iff _ _), (rdata_eqb_iff _ _ M M'). tauto. Qed.
Lemma rrs_eqb_iff rs rs' : Forall (fun r => a_map (rr_data r)) rs -> Forall (fun r => a_map (rr_data r)) rs' -> (vec_eqb rr_eqb rs rs' = true <-> Forall2 same_rr rs rs').
Proof. intros M M'. apply vec_eqb_rel. intros x y I I'. rewrite Forall_forall in M, M'. apply rr_eqb_iff; [apply M|apply M']; assumption. Qed.

(** Packets are equal with [==] exactly if they say the same. *)
Theorem C127_meaning : forall p p' : packet, maps_in p -> maps_in p' -> (packet_eqb p p' = true <-> same_packet p p').
Proof.
  intros p p' M M'. unfold maps_in, records_of in M, M'. rewrite !Forall_app in M, M'. destruct M as (M1 & M2 & M3), M' as (M1' & M2' & M3').
  unfold packet_eqb, same_packet. rewrite !andb_true_iff, (header_iff _ _), (vec_eqb_iff _ question_iff _ _), !rrs_eqb_iff by assumption. tauto.
Qed.

(** And so are their parts. *)
Theorem C127_parts : (forall a b : header, header_eqb a b = true <-> a = b) /\ (forall a b : question, question_eqb a b = true <-> a = b) /\
  (forall a b : opcode, opcode_eqb a b = true <-> a = b) /\ (forall a b : response_code, response_code_eqb a b = true <-> a = b) /\
  (forall a b : rr, a_map (rr_data a) -> a_map (rr_data b) -> (rr_eqb a b = true <-> same_rr a b)) /\
  (forall a b : rdata, a_map a -> a_map b -> (rdata_eqb a b = true <-> same_data a b)).
Proof. exact (conj header_iff (conj question_iff (conj opcode_iff (conj response_code_iff (conj rr_eqb_iff rdata_eqb_iff))))). Qed.

Lemma same_data_refl d : same_data d d. Proof. destruct d; try reflexivity. apply Permutation_refl. Qed.
Lemma same_data_sym d d' : same_data d d' -> same_data d' d.
Proof. destruct d, d'; cbn [same_data]; try congruence. apply Permutation_sym. Qed.
Lemma same_data_trans d d' d'' : same_data d d' -> same_data d' d'' -> same_data d d''.
Proof. destruct d, d'; cbn [same_data]; try discriminate; try (intros [= <-]; tauto). destruct d''; try discriminate. apply Permutation_trans. Qed.
Lemma same_rr_refl r : same_rr r r. Proof. repeat split. apply same_data_refl. Qed.
Lemma same_rr_sym r r' : same_rr r r' -> same_rr r' r.
Proof. intros (A & B & C & D & E & F). repeat split; try congruence. apply same_data_sym, F. Qed.
Lemma same_rr_trans r r' r'' : same_rr r r' -> same_rr r' r'' -> same_rr r r''.
Proof. intros (A & B & C & D & E & F) (A' & B' & C' & D' & E' & F'). repeat split; try congruence. exact (same_data_trans _ _ _ F F'). Qed.
Lemma F2_refl l : Forall2 same_rr l l. Proof. induction l; constructor; [apply same_rr_refl|assumption]. Qed.
Lemma F2_sym l l' : Forall2 same_rr l l' -> Forall2 same_rr l' l. Proof. induction 1; constructor; [apply same_rr_sym; assumption|assumption]. Qed.
Lemma F2_trans l l' l'' : Forall2 same_rr l l' -> Forall2 same_rr l' l'' -> Forall2 same_rr l l''.
Proof. intros H. revert l''. induction H as [|x y l l' A H IH]; intros l'' G; inversion G; subst; constructor; [eapply same_rr_trans; eassumption|apply IH; assumption]. Qed.
(** It is an equality: each is equal to itself, and order and chains do not matter ([Eq]). *)
Theorem C127_equivalence : forall p p' p'' : packet, maps_in p -> maps_in p' -> maps_in p'' ->
  packet_eqb p p = true /\ packet_eqb p' p = packet_eqb p p' /\ (packet_eqb p p' = true -> packet_eqb p' p'' = true -> packet_eqb p p'' = true).
Proof.
  intros p p' p'' M M' M''.
  assert (Sy : forall a b, same_packet a b -> same_packet b a) by (intros a b (A & B & C & D & E); repeat split; try congruence; apply F2_sym; assumption).
  split; [apply C127_meaning; [exact M|exact M|]; repeat split; apply F2_refl|]. split.
  - apply Bool.eq_true_iff_eq. rewrite !C127_meaning by assumption. split; apply Sy.
  - rewrite !C127_meaning by assumption. intros (A & B & C & D & E) (A' & B' & C' & D' & E'). repeat split; try congruence; eapply F2_trans; eassumption.
Qed.
(** A packet that says the same is equal, in whatever order the maps of either list their entries. *)
Lemma same_maps p p' : maps_in p -> same_packet p p' -> maps_in p'.
Proof.
  assert (H : forall l l', Forall (fun r => a_map (rr_data r)) l -> Forall2 same_rr l l' -> Forall (fun r => a_map (rr_data r)) l').
  { intros l l' F G. induction G as [|x y l l' S G IH]; [constructor|]. inversion F as [|? ? Fx Fl]; subst. constructor; [|apply IH, Fl].
    destruct S as (_ & _ & _ & _ & _ & S). destruct (rr_data x), (rr_data y); cbn [a_map same_data] in *; try exact Logic.I; try discriminate S.
    exact (Permutation_NoDup (Permutation_map fst S) Fx). }
  unfold maps_in, records_of. rewrite !Forall_app. intros (A & B & C) (_ & _ & S1 & S2 & S3). exact (conj (H _ _ A S1) (conj (H _ _ B S2) (H _ _ C S3))).
Qed.
Lemma typed_map c d : rdata_typed c d -> a_map d.
Proof. destruct d; try (intros _; exact Logic.I). intros (_ & A & _). exact A. Qed.
Lemma ok_maps c p : packet_ok c p -> maps_in p.
Proof. intros (_ & _ & F). unfold maps_in. eapply Forall_impl; [|exact F]. intros r (_ & T & _). exact (typed_map c _ T). Qed.
(** What arrives is equal to what was sent, once the counts are right, as they are in every packet filled with the setters. *)
Theorem C127_arrives_partial : forall (c : cfg) (h : hasher) (p : packet) (out : bytes), sent c h p out -> counts_of p = true_counts p ->
  exists p', packet_try_from c out = Ok p' /\ forall q, same_packet p' q -> packet_eqb q p = true /\ packet_eqb p q = true.
Proof.
  intros c h p out S C.
  assert (A : packet_try_from c out = Ok p /\ packet_ok c p).
  { destruct S as [O Sm E|O _ H E L].
    - destruct (C28_plain_roundtrip_partial c p O Sm) as (bs & Eb & R). rewrite Eb in E. apply Ok_inj in E. subst bs. specialize (R []). rewrite app_nil_r in R.
      assert (Ep : mkPacket (mkheader (id (p_header p)) (hflags (p_header p)) (N.of_nat (length (p_questions p))) (N.of_nat (length (p_answers p))) (N.of_nat (length (p_authorities p))) (N.of_nat (length (p_additionals p))))
        (p_questions p) (p_answers p) (p_authorities p) (p_additionals p) = p).
      { destruct p as [[i f q a b d] Q An Au Ad]. unfold counts_of, true_counts in C. cbn in C |- *. injection C as -> -> -> ->. reflexivity. }
      rewrite Ep in R. split; [exact R|]. destruct O as (O1 & O2 & O3). split; [exact O1|]. split; [exact O2|]. eapply Forall_impl; [|exact O3]. intros r (X & _). exact X.
    - split; [|exact O]. pose proof (C29_compressed_roundtrip_partial c h p out O C H E L []) as R. rewrite app_nil_r in R. exact R. }
  destruct A as (R & O). exists p. split; [exact R|]. intros q Sq. pose proof (ok_maps c p O) as M. pose proof (same_maps p q M Sq) as Mq.
  destruct (C127_equivalence p q q M Mq Mq) as (_ & Sy & _). rewrite Sy, (C127_meaning p q M Mq). split; exact Sq.
Qed.
(** Packets that are not equal are sent with different octets. *)
Theorem C127_distinct_partial : forall (c : cfg) (h h' : hasher) (p p' : packet) (out : bytes), sent c h p out -> sent c h' p' out ->
  counts_of p = true_counts p -> counts_of p' = true_counts p' -> packet_eqb p p' = true.
Proof.
  intros c h h' p p' out S S' C C'. destruct (C127_arrives_partial c h p out S C) as (a & R & H), (C127_arrives_partial c h' p' out S' C') as (b & R' & H').
  rewrite R in R'. apply Ok_inj in R'. subst b.
  assert (Ra : same_packet a a) by (repeat split; apply F2_refl). destruct (H a Ra) as (_ & E1), (H' a Ra) as (E2 & _).
  assert (M : forall x hx, sent c hx x out -> maps_in x).
  { intros x hx [O _ _|O _ _ _ _]; [|exact (ok_maps c x O)]. destruct O as (_ & _ & F). unfold maps_in. eapply Forall_impl; [|exact F]. intros r ((_ & T & _) & _). exact (typed_map c _ T). }
  pose proof (M p h S) as Mp. pose proof (M p' h' S') as Mp'.
  assert (Ma : maps_in a).
  { destruct S as [O Sm E|O _ Hs E L].
    - destruct (C28_plain_roundtrip_partial c p O Sm) as (bs & Eb & X). rewrite Eb in E. apply Ok_inj in E. subst bs. specialize (X []). rewrite app_nil_r in X. rewrite X in R. apply Ok_inj in R. subst a. exact Mp.
    - pose proof (C29_compressed_roundtrip_partial c h p out O C Hs E L []) as X. rewrite app_nil_r in X. rewrite X in R. apply Ok_inj in R. subst a. exact Mp. }
  destruct (C127_equivalence p a p' Mp Ma Mp') as (_ & _ & Tr). exact (Tr E1 E2).
Qed.
(** Equal packets are written with as many octets, or neither is written, for the same reason; and the size announced is the same. *)
Definition as_long {X} (R : X -> X -> Prop) (a b : res X) : Prop :=
  match a, b with Ok x, Ok y => R x y | Err e, Err e' => e = e' | Panic, Panic => True | Diverge, Diverge => True | _, _ => False end.
Definition same_length (x y : bytes) : Prop := length x = length y.
Lemma as_long_bind {X Y} (R : X -> X -> Prop) (S : Y -> Y -> Prop) a b f g : as_long R a b -> (forall x y, R x y -> as_long S (f x) (g y)) -> as_long S (rbind a f) (rbind b g).
Proof. destruct a, b; cbn; try tauto. intros H K. exact (K _ _ H). Qed.
Lemma as_long_refl {X} (R : X -> X -> Prop) a : (forall x, R x x) -> as_long R a a. Proof. intros H. destruct a; cbn; auto. Qed.
Lemma opt_sum m n : fold_left (fun acc (e : N * bytes) => (acc + length (snd e))%nat) m n = (n + fold_right (fun (e : N * bytes) k => length (snd e) + k)%nat 0%nat m)%nat.
Proof. revert n. induction m as [|e m IH]; intros n; cbn [fold_left fold_right]; [lia|]. rewrite IH. lia. Qed.
Lemma same_size c d d' : same_data d d' -> rdata_byte_size c d = rdata_byte_size c d'.
Proof.
  destruct d, d'; cbn [same_data]; intros S; try discriminate S; try (rewrite S; reflexivity). cbn [rdata_byte_size]. f_equal. unfold opt_byte_size. rewrite !opt_sum.
  induction S; cbn [fold_right]; lia.
Qed.
Lemma same_data_long c d d' : same_data d d' -> as_long same_length (rdata_to_bytes c d) (rdata_to_bytes c d').
Proof.
  destruct d, d'; cbn [same_data]; intros S; try discriminate S; try (rewrite S; apply as_long_refl; reflexivity). cbn [rdata_to_bytes as_long]. unfold same_length, opt_to_bytes.
  induction S; cbn [flat_map]; rewrite ?app_length; lia.
Qed.
Definition same_state (x y : bytes * names) : Prop := same_length (fst x) (fst y) /\ snd x = snd y.
Lemma same_data_comp c h d d' m o : same_data d d' -> as_long same_state (rdata_to_bytes_compressed c h d m o) (rdata_to_bytes_compressed c h d' m o).
Proof.
  intros S. assert (E : d = d' \/ exists x x', d = DOPT x /\ d' = DOPT x' /\ Permutation x x').
  { destruct d, d'; cbn [same_data] in S; try (left; exact S); try discriminate S. right. eauto. }
  destruct E as [<-|(x & x' & -> & -> & P)]; [apply as_long_refl; split; reflexivity|]. cbn [rdata_to_bytes_compressed]. eapply as_long_bind; [apply (same_data_long c (DOPT x) (DOPT x')), P|].
  intros a b L. split; [exact L|reflexivity].
Qed.
Lemma same_rr_long c r r' : same_rr r r' -> rr_byte_size c r = rr_byte_size c r' /\ as_long same_length (rr_to_bytes c r) (rr_to_bytes c r').
Proof.
  destruct r as [n t f k w d], r' as [n' t' f' k' w' d']. intros (A & B & C & D & E & S). cbn [rr_name rr_type rr_flush rr_class rr_ttl rr_data] in *. subst n' t' f' k' w'.
  assert (Z : forall X (g : nat -> res X), rbind (rdata_byte_size c d) g = rbind (rdata_byte_size c d') g) by (intros; rewrite (same_size c d d' S); reflexivity).
  split; [unfold rr_byte_size; cbn [rr_data rr_name]; apply Z|]. unfold rr_to_bytes, rr_byte_size, rr_class_field. cbn [rr_data rr_name rr_type rr_flush rr_class rr_ttl].
  rewrite (same_size c d d' S). destruct (rdata_byte_size c d') as [z|e| |]; cbn [rbind as_long]; try reflexivity; try exact Logic.I.
  eapply as_long_bind; [apply same_data_long, S|]. intros a b L. cbn [as_long]. unfold same_length in *. rewrite !app_length, L. reflexivity.
Qed.
Lemma same_rr_comp c h r r' m o : same_rr r r' -> as_long same_state (rr_to_bytes_compressed c h r m o) (rr_to_bytes_compressed c h r' m o).
Proof.
  destruct r as [n t f k w d], r' as [n' t' f' k' w' d']. intros (A & B & C & D & E & S). cbn [rr_name rr_type rr_flush rr_class rr_ttl rr_data] in *. subst n' t' f' k' w'.
  unfold rr_to_bytes_compressed, rr_class_field. cbn [rr_data rr_name rr_type rr_flush rr_class rr_ttl]. destruct (fqdn_to_bytes_compressed h n m o) as (nb, m1).
  eapply as_long_bind; [apply same_data_comp, S|]. intros (a, ma) (b, mb) (L & Em). cbn [fst snd] in L, Em. subst mb. cbn [as_long fst snd]. split; [|reflexivity]. cbn [fst]. unfold same_length in *. rewrite !app_length, L. reflexivity.
Qed.
Lemma same_rrs_long c l l' : Forall2 same_rr l l' -> sum_res (rr_byte_size c) l = sum_res (rr_byte_size c) l' /\ as_long same_length (concat_res (rr_to_bytes c) l) (concat_res (rr_to_bytes c) l').
Proof.
  induction 1 as [|x y l l' S H (IH & IH')]; [split; reflexivity|]. destruct (same_rr_long c x y S) as (A & B). cbn [sum_res concat_res]. split; [rewrite A, IH; reflexivity|].
  eapply as_long_bind; [exact B|]. intros a b L. eapply as_long_bind; [exact IH'|]. intros a' b' L'. cbn. unfold same_length in *. rewrite !app_length. lia.
Qed.
Lemma same_rrs_comp c h l l' : Forall2 same_rr l l' -> forall b b' m, same_length b b' -> as_long same_state (records_compressed c h l b m) (records_compressed c h l' b' m).
Proof.
  induction 1 as [|x y l l' S H IH]; intros b b' m L; [split; [exact L|reflexivity]|]. cbn [records_compressed]. unfold same_length in L. rewrite L. eapply as_long_bind; [apply same_rr_comp, S|].
  intros (a, ma) (a', ma') (La & Em). cbn [fst snd] in *. subst ma'. apply IH. unfold same_length in *. rewrite !app_length. lia.
Qed.
Theorem C127_same_length : forall (c : cfg) (h : hasher) (p p' : packet), maps_in p -> maps_in p' -> packet_eqb p p' = true ->
  packet_byte_size c p = packet_byte_size c p' /\ as_long same_length (packet_to_bytes c p) (packet_to_bytes c p') /\
  as_long same_length (packet_to_bytes_compressed c h p) (packet_to_bytes_compressed c h p').
Proof.
  intros c h p p' M M' E. apply C127_meaning in E; try assumption. destruct p as [hd qs an au ad], p' as [hd' qs' an' au' ad']. destruct E as (Eh & Eq & A & B & D). cbn [p_header p_questions p_answers p_authorities p_additionals] in *. subst hd' qs'.
  destruct (same_rrs_long c _ _ A) as (A1 & A2), (same_rrs_long c _ _ B) as (B1 & B2), (same_rrs_long c _ _ D) as (D1 & D2).
  assert (Z : packet_byte_size c (mkPacket hd qs an au ad) = packet_byte_size c (mkPacket hd qs an' au' ad')) by (unfold packet_byte_size; cbn [p_questions p_answers p_authorities p_additionals]; rewrite A1, B1, D1; reflexivity).
  split; [exact Z|]. split.
  - unfold packet_to_bytes. rewrite Z. destruct (packet_byte_size c (mkPacket hd qs an' au' ad')) as [z|e| |]; cbn [rbind as_long]; try reflexivity; try exact Logic.I. cbn [p_header p_questions p_answers p_authorities p_additionals].
    eapply as_long_bind; [exact A2|]. intros a a' La. eapply as_long_bind; [exact B2|]. intros b b' Lb. eapply as_long_bind; [exact D2|]. intros d d' Ld. cbn [as_long]. unfold same_length, patched_header in *.
    cbn [p_header p_questions p_answers p_authorities p_additionals]. rewrite !app_length, !be_length. lia.
  - unfold packet_to_bytes_compressed. cbn [p_header p_questions p_answers p_authorities p_additionals]. destruct (questions_compressed c h qs (header_to_bytes hd) []) as (b0, m0).
    eapply as_long_bind; [apply same_rrs_comp; [exact A|reflexivity]|]. intros (a, ma) (a', ma') (La & Ea). cbn [fst snd] in *. subst ma'.
    eapply as_long_bind; [apply same_rrs_comp; [exact B|exact La]|]. intros (b, mb) (b', mb') (Lb & Eb). cbn [fst snd] in *. subst mb'.
    eapply as_long_bind; [apply same_rrs_comp; [exact D|exact Lb]|]. intros (d, md) (d', md') (Ld & _). exact Ld.
Qed.
(** Equal packets are written with the same octets, unless they have a map of two or more options. *)
Definition few_options (p : packet) : Prop := Forall (fun r => match rr_data r with DOPT m => (length m <= 1)%nat | _ => True end) (records_of p).
Theorem C127_same_octets_partial : forall (c : cfg) (h : hasher) (p p' : packet), maps_in p -> maps_in p' -> few_options p -> packet_eqb p p' = true ->
  p' = p /\ packet_to_bytes c p' = packet_to_bytes c p /\ packet_to_bytes_compressed c h p' = packet_to_bytes_compressed c h p.
Proof.
  intros c h p p' M M' F E. apply C127_meaning in E; try assumption.
  assert (Ep : p' = p); [|rewrite Ep; repeat split].
  assert (H : forall l l', Forall (fun r => match rr_data r with DOPT m => (length m <= 1)%nat | _ => True end) l -> Forall2 same_rr l l' -> l' = l).
  { intros l l' Fl G. induction G as [|x y l l' S G IH]; [reflexivity|]. inversion Fl as [|? ? Fx Fl']; subst. rewrite (IH Fl'). f_equal.
    destruct x as [n t f k w d], y as [n' t' f' k' w' d']. destruct S as (A & B & C & D & E' & S). cbn [rr_name rr_type rr_flush rr_class rr_ttl rr_data] in *. subst. f_equal.
    destruct d, d'; try discriminate S; try (symmetry; exact S). cbn [same_data] in S. f_equal. destruct x as [|e [|e2 m]]; [apply Permutation_nil in S; exact S|apply Permutation_length_1_inv in S; exact S|cbn in Fx; lia]. }
  unfold few_options, records_of in F. rewrite !Forall_app in F. destruct F as (F1 & F2 & F3), E as (A & B & C & D & G). destruct p as [hd qs an au ad], p' as [hd' qs' an' au' ad']. cbn in *.
  rewrite (H _ _ F1 C), (H _ _ F2 D), (H _ _ F3 G). congruence.
Qed.
(** The two kinds of exceptions.  Two maps of the same options may list them differently, and a count that was never set is compared although it is not sent. *)
Definition with_options (m : opt) : packet := mkPacket (mkheader 7 (hflags (header_new_query 0 false)) 0 0 0 1) [] [] [] [mkRR [] OPT false (UdpPayloadSize 1232) 0 (DOPT m)].
Theorem C127_order_refuted : forall (c : cfg) (h : hasher), exists (p p' : packet) (b b' : bytes), packet_ok c p /\ packet_ok c p' /\ packet_eqb p p' = true /\
  packet_to_bytes_compressed c h p = Ok b /\ packet_to_bytes_compressed c h p' = Ok b' /\ b <> b'.
Proof.
  intros c h. exists (with_options [(10, [1; 2]); (15, [0])]), (with_options [(15, [0]); (10, [1; 2])]).
  destruct c as [[|] [|] [|]]; eexists; eexists; (split; [split; [repeat split|]; split; [constructor|]; repeat (apply Forall_cons; [split; [|split]|]); try apply Forall_nil; repeat split; try discriminate; try reflexivity; repeat constructor; cbn; try lia; intuition discriminate|];
    split; [split; [repeat split|]; split; [constructor|]; repeat (apply Forall_cons; [split; [|split]|]); try apply Forall_nil; repeat split; try discriminate; try reflexivity; repeat constructor; cbn; try lia; intuition discriminate|];
    split; [reflexivity|]; split; [cbv; reflexivity|]; split; [cbv; reflexivity|discriminate]).
Qed.
Theorem C127_counts_refuted : forall c : cfg, exists (p p' : packet) (b : bytes), packet_plain_ok c p /\ small_sections p /\ packet_to_bytes c p = Ok b /\ packet_try_from c b = Ok p' /\ packet_eqb p p' = false.
Proof.
  intros c. exists (packet_with_questions 7 true [mkQ ex_www (QT A) QIN false]).
  destruct c as [[|] [|] [|]]; eexists; eexists; (split; [|split; [|split; [vm_compute; reflexivity|split; [vm_compute; reflexivity|reflexivity]]]]).
  all: try (unfold small_sections; cbn; lia).
  all: split; [unfold header_typed; cbn; lia|]; split; [|apply Forall_nil]; apply Forall_cons; [|apply Forall_nil]; split; [|split; [|reflexivity]].
  all: try (unfold fqdn_ok, label_ok; repeat constructor; cbn; lia).
  all: repeat split; try reflexivity; discriminate.
Qed.
Example C127_ex : sent ex_cfg ex_hash ex_packet match packet_to_bytes_compressed ex_cfg ex_hash ex_packet with Ok b => b | _ => [] end /\ counts_of ex_packet = true_counts ex_packet /\
  maps_in (with_options [(10, [1; 2]); (15, [0])]) /\ packet_eqb (with_options [(10, [1; 2]); (15, [0])]) (with_options [(15, [0]); (10, [1; 2])]) = true /\
  packet_eqb (with_options [(10, [1; 2]); (15, [0])]) (with_options [(15, [0]); (10, [1; 3])]) = false /\ few_options ex_packet.
Proof.
  destruct C29_ex as (A & B & C & _). split.
  - apply sent_compressed; try assumption; vm_compute; [reflexivity|discriminate].
  - split; [exact B|]. split; [repeat constructor; cbn; intuition discriminate|]. split; [reflexivity|]. split; [reflexivity|]. repeat constructor.
Qed.
Print Assumptions C127_meaning.
Print Assumptions C127_parts.
Print Assumptions C127_equivalence.
Print Assumptions C127_arrives_partial.
Print Assumptions C127_distinct_partial.
Print Assumptions C127_same_length.
Print Assumptions C127_same_octets_partial.
Print Assumptions C127_order_refuted.
Print Assumptions C127_counts_refuted.
