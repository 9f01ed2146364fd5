(** * C135: padded messages *)
From Coq Require Import Lia ZifyBool ZifyNat ZifyN Permutation.
From Verif Require Import Base Buffer Fqdn Header Types RDataBasic Svcb RDataSec RData Packet BaseFacts BufferFacts FqdnFacts CompressSpec HeaderSpec CodeSpec RDataSpec RecordSpec RDataReads RecordFacts PacketFacts
  PatchSpec AppendSpec ChunkFacts PropName PropRecord PropPacket PropAppend PropEdns PropMac.
Ltac Zify.zify_post_hook ::= Z.div_mod_to_equations.

(** ** What users write (RFC 7830; RFC 8467, 4.1)

    Who sends messages over an encrypted channel fills them up to a multiple of some number of octets, so that their size tells little.  They add an OPT record
    with an empty padding option, write the message to see how long it is, and then add the record with as many zeros as are missing instead. *)
Definition padding (n : nat) : N * bytes := (12, repeat 0 n).
Definition opt_record (size ttl : N) (m : opt) : rr := mkRR [] OPT false (UdpPayloadSize size) ttl (DOPT m).
Definition missing (block size : nat) : nat := ((block - size mod block) mod block)%nat.

(** ** What is meant *)
(** The smallest number of blocks that the octets fit into. *)
Definition blocks_for (block size k : nat) : Prop := (size <= block * k)%nat /\ forall j, (size <= block * j)%nat -> (k <= j)%nat.

Lemma missing_fills block size : block <> 0%nat -> exists k, (size + missing block size = block * k)%nat /\ blocks_for block size k /\ (missing block size < block)%nat.
Proof.
  intros B. unfold missing, blocks_for. pose proof (Nat.div_mod size block B) as D. pose proof (Nat.mod_upper_bound size block B) as U. set (q := (size / block)%nat) in *. set (r := (size mod block)%nat) in *.
  destruct (Nat.eq_dec r 0) as [Z|Z].
  - exists q. rewrite Z, Nat.sub_0_r, Nat.mod_same by exact B. repeat split; [lia|lia| |lia]. intros j J. apply Nat.mul_le_mono_pos_l with block; lia.
  - exists (S q). rewrite (Nat.mod_small (block - r)) by lia. repeat split; [lia|lia| |lia]. intros j J. apply Nat.lt_le_incl in U as _. enough (q < j)%nat by lia. apply Nat.mul_lt_mono_pos_l with block; lia.
Qed.
Lemma opt_length m : forall a n, Permutation m (padding n :: a) -> length (opt_to_bytes m) = (4 + n + length (opt_to_bytes a))%nat.
Proof.
  intros a n P. unfold opt_to_bytes. rewrite (Permutation_length (Permutation_flat_map opt_entry_bytes P)). cbn [flat_map]. rewrite app_length. unfold opt_entry_bytes at 1, padding. cbn [fst snd].
  rewrite !app_length, repeat_length. rewrite !be_length. lia.
Qed.
Lemma record_length c h p size ttl m out p' out' : packet_to_bytes_compressed c h p = Ok out -> add_additional c p (opt_record size ttl m) = Ok p' -> packet_to_bytes_compressed c h p' = Ok out' ->
  (1 <= length (opt_to_bytes m))%nat -> length out' = (length out + 11 + length (opt_to_bytes m))%nat.
Proof.
  intros E A E' L. destruct (C99_compressed c h p Additionals _ out p' out' E Logic.I A E') as (rb & n & n' & R & ->).
  assert (Lr : length rb = (11 + length (opt_to_bytes m))%nat).
  { unfold rr_to_bytes_compressed in R. cbn [opt_record rr_name fqdn_to_bytes_compressed rr_data rdata_to_bytes_compressed rdata_to_bytes rbind fst snd] in R. apply Ok_inj in R. injection R as <- _.
    reflexivity. }
  unfold patch. cbn [count_at]. rewrite !app_length, firstn_length, skipn_length, app_length, be_length. lia.
Qed.

Lemma one_more c p q r : counts_of p = true_counts p -> N.of_nat (length (p_additionals p)) < 65535 -> add_additional c p r = Ok q ->
  p_questions q = p_questions p /\ records_of q = records_of p ++ [r] /\ counts_of q = true_counts q /\ (header_typed (p_header p) -> header_typed (p_header q)).
Proof.
  intros C La A. destruct (taken_off _ _ _ _ C La A) as (Cq & X & _). unfold add_additional in A. apply rbind_ok in A. destruct A as (x & Ux & A). apply Ok_inj in A. subst q.
  split; [reflexivity|]. split; [unfold records_of; cbn [p_answers p_authorities p_additionals]; rewrite <- !app_assoc; reflexivity|]. split; [exact Cq|].
  unfold counts_of, true_counts in Cq. injection Cq as _ _ _ Cq. cbn [p_header p_additionals] in Cq. unfold header_typed. intros (H1 & H2 & H3 & H4 & H5 & H6).
  cbn [p_header with_counts id hflags ques_count ans_count auth_count add_count] in *. rewrite app_length in Cq. cbn [length] in Cq. repeat split; try assumption. lia.
Qed.
Lemma opt_ok c size ttl m : size < 32768 /\ ~ (1 <= size <= 4) -> ttl < 4294967296 -> NoDup (map fst m) -> Forall (fun x => fst x < 65536 /\ N.of_nat (length (snd x)) <= 65535) m -> rr_ok c (opt_record size ttl m).
Proof.
  intros P T ND Fm. assert (D : decodable c OPT) by (split; [exact (basic_exists c OPT eq_refl)|split; discriminate]).
  split; [split; [constructor|split; [exact D|split; [reflexivity|split; [exact P|split; [exact T|reflexivity]]]]]|]. split; [split; [exact (basic_exists c OPT eq_refl)|]|].
  - split; [exact ND|]. eapply Forall_impl; [|exact Fm]. cbv beta. unfold U16. tauto.
  - cbn [rr_data opt_record rdata_fits]. eapply Forall_impl; [|exact Fm]. cbv beta. unfold short16. tauto.
Qed.
Lemma map_ok m m1 n : Permutation m1 (padding n :: m) -> N.of_nat n <= 65535 -> NoDup (12 :: map fst m) -> Forall (fun x => fst x < 65536 /\ N.of_nat (length (snd x)) <= 65535) m ->
  NoDup (map fst m1) /\ Forall (fun x => fst x < 65536 /\ N.of_nat (length (snd x)) <= 65535) m1.
Proof.
  intros P L ND F. split.
  - eapply Permutation_NoDup; [apply Permutation_sym, (Permutation_map fst P)|exact ND].
  - eapply Permutation_Forall; [apply Permutation_sym, P|]. constructor; [|exact F]. cbn [padding fst snd]. rewrite repeat_length. split; [reflexivity|exact L].
Qed.
Lemma root_names h a : hash_separates h a -> hash_separates h (a ++ [[]]).
Proof.
  assert (T : forall s, tail_of (a ++ [[]]) s -> tail_of a s).
  { intros s (N & f & b & I & E). split; [exact N|]. apply in_app_iff in I. destruct I as [I|[<-|[]]]; [exists f, b; auto|]. destruct b, s; try discriminate E. congruence. }
  intros H s1 s2 T1 T2. apply H; apply T; assumption.
Qed.

(** ** Theorems *)
(** The message that is sent has the size of the blocks it needs, and arrives; whatever the other options, in whatever order the two maps have them. *)
Theorem C135_padded_partial : forall (c : cfg) (h : hasher) (p p0 p1 : packet) (size ttl : N) (m m0 m1 : opt) (block : nat) (out0 : bytes),
  packet_ok c p -> counts_of p = true_counts p -> N.of_nat (length (p_additionals p)) < 65535 -> hash_separates h (packet_names p) ->
  size < 32768 /\ ~ (1 <= size <= 4) -> ttl < 4294967296 -> NoDup (12 :: map fst m) -> Forall (fun x => fst x < 65536 /\ N.of_nat (length (snd x)) <= 65535) m -> block <> 0%nat ->
  Permutation m0 (padding 0 :: m) -> add_additional c p (opt_record size ttl m0) = Ok p0 -> packet_to_bytes_compressed c h p0 = Ok out0 ->
  Permutation m1 (padding (missing block (length out0)) :: m) -> add_additional c p (opt_record size ttl m1) = Ok p1 ->
  N.of_nat (length out0 + missing block (length out0)) <= 16384 ->
  exists (out1 : bytes) (k : nat), packet_to_bytes_compressed c h p1 = Ok out1 /\ length out1 = (block * k)%nat /\ blocks_for block (length out0) k /\ packet_try_from c out1 = Ok p1.
Proof.
  intros c h p p0 p1 size ttl m m0 m1 block out0 O C La H S T ND Fm B P0 A0 E0 P1 A1 Lim.
  destruct (missing_fills block (length out0) B) as (k & Ek & Bk & Lk). set (n := missing block (length out0)) in *.
  destruct (map_ok _ _ _ P0 ltac:(lia) ND Fm) as (D0 & F0). destruct (map_ok _ _ _ P1 ltac:(lia) ND Fm) as (D1 & F1).
  destruct (one_more _ _ _ _ C La A0) as (Q0 & R0 & C0 & H0). destruct (one_more _ _ _ _ C La A1) as (Q1 & R1 & C1 & H1).
  assert (Ok0 : rr_ok c (opt_record size ttl m0)) by (apply opt_ok; assumption). assert (Ok1 : rr_ok c (opt_record size ttl m1)) by (apply opt_ok; assumption).
  destruct O as (Oh & Oq & Or).
  assert (Ty : forall l, Forall (rr_ok c) l -> Forall (fun r => rdata_typed c (rr_data r)) l) by (intros l; apply Forall_impl; intros r (_ & X & _); exact X).
  assert (W0 : packet_writable c p0) by (apply (C49_returns_iff_partial c h p0); [unfold packet_typed; rewrite R0; apply Ty, Forall_app; split; [exact Or|constructor; [exact Ok0|constructor]]|exists out0; exact E0]).
  assert (W : packet_writable c p) by (unfold packet_writable in *; rewrite R0 in W0; apply Forall_app in W0; apply W0).
  assert (Wr : exists out, packet_to_bytes_compressed c h p = Ok out) by (apply (C49_returns_iff_partial c h p); [apply Ty, Or|exact W]). destruct Wr as (out & E).
  assert (O1 : Forall (rr_ok c) (records_of p1)) by (rewrite R1; apply Forall_app; split; [exact Or|constructor; [exact Ok1|constructor]]).
  assert (W1 : exists out1, packet_to_bytes_compressed c h p1 = Ok out1).
  { apply (C49_returns_iff_partial c h p1); [apply Ty, O1|]. unfold packet_writable. rewrite R1. apply Forall_app. split; [exact W|]. constructor; [exact Logic.I|constructor]. }
  destruct W1 as (out1 & E1). exists out1, k. split; [exact E1|].
  pose proof (opt_length _ _ _ P0) as L0. pose proof (opt_length _ _ _ P1) as L1.
  pose proof (record_length _ _ _ _ _ _ _ _ _ E A0 E0 ltac:(lia)) as K0. pose proof (record_length _ _ _ _ _ _ _ _ _ E A1 E1 ltac:(lia)) as K1.
  assert (Lo : length out1 = (length out0 + n)%nat) by lia. split; [lia|]. split; [exact Bk|].
  pose proof (C29_compressed_roundtrip_partial c h p1 out1) as X. specialize (X ltac:(split; [exact (H1 Oh)|split; [rewrite Q1; exact Oq|exact O1]]) C1).
  assert (Hn : hash_separates h (packet_names p1)).
  { unfold packet_names. rewrite Q1, R1, flat_map_app, app_assoc. cbn [flat_map opt_record rr_names rr_name rr_data rdata_names app]. apply root_names, H. }
  specialize (X Hn E1 ltac:(lia) []). rewrite app_nil_r in X. exact X.
Qed.
(** Who sees only sizes sees how many blocks there are: messages that need the same number of them look the same. *)
Theorem C135_alike : forall (block size size' : nat), block <> 0%nat ->
  (size + missing block size = size' + missing block size' <-> exists k, blocks_for block size k /\ blocks_for block size' k)%nat.
Proof.
  intros block a b B. destruct (missing_fills block a B) as (k & Ea & Ka & _), (missing_fills block b B) as (j & Eb & Kb & _). rewrite Ea, Eb. split.
  - intros E. apply Nat.mul_cancel_l in E; [|exact B]. subst j. exists k. auto.
  - intros (i & (I1 & I2) & (J1 & J2)). destruct Ka as (A1 & A2), Kb as (B1 & B2). f_equal. assert (k = i) by (apply Nat.le_antisymm; [apply A2, I1|apply I2, A1]). assert (j = i) by (apply Nat.le_antisymm; [apply B2, J1|apply J2, B1]). congruence.
Qed.
(** In plain form the padding is lost: the record that arrives, if any, is another one, ... *)
Theorem C135_plain_refuted : forall (c : cfg) (p p1 q : packet) (size ttl : N) (m m1 : opt) (n : nat) (out1 : bytes),
  packet_plain_ok c p -> counts_of p = true_counts p -> N.of_nat (length (p_additionals p)) < 65535 ->
  size < 32768 /\ ~ (1 <= size <= 4) -> ttl < 4294967296 -> NoDup (12 :: map fst m) -> Forall (fun x => fst x < 65536) m ->
  Permutation m1 (padding n :: m) -> N.of_nat (length (flat_map option_octets m1)) <= 65535 -> add_additional c p (opt_record size ttl m1) = Ok p1 ->
  packet_to_bytes c p1 = Ok out1 -> byte_list out1 -> packet_try_from c out1 = Ok q -> exists r rest, records_of q = records_of p ++ r :: rest /\ r <> opt_record size ttl m1.
Proof.
  intros c p p1 q size ttl m m1 n out1 (Oh & Oq & Or) C La S T ND F P L A E B R. destruct (one_more _ _ _ _ C La A) as (Q1 & R1 & C1 & H1).
  apply (C107_options_refuted c p1 q out1 [] (records_of p) [] size ttl m1 (H1 Oh)); try assumption; try (rewrite app_nil_r; assumption).
  - rewrite Q1. exact Oq.
  - apply counts_small; [exact (H1 Oh)|exact C1].
  - eapply Permutation_NoDup; [apply Permutation_sym, (Permutation_map fst P)|exact ND].
  - eapply Permutation_Forall; [apply Permutation_sym, P|]. constructor; [reflexivity|exact F].
Qed.
Definition pad_query (f : fqdn) : packet := mkPacket (mkheader 5 (hflags (header_new_query 0 true)) 1 0 0 0) [mkQ f (QT AAAA) QIN false] [] [] [].
Lemma pad_query_ok c : packet_ok c (pad_query ex_www).
Proof. split; [repeat split|]. split; [|constructor]. constructor; [|constructor]. destruct c as [[|] [|] [|]]; repeat split; try discriminate; unfold fqdn_ok, label_ok; repeat constructor; cbn; try lia; try discriminate. Qed.
(** ... and whoever asks [byte_size] for the size fills up to the wrong one. *)
Theorem C135_size_refuted : forall c : cfg, exists (p p0 p1 : packet) (n0 : nat) (out1 : bytes), packet_ok c p /\ counts_of p = true_counts p /\
  add_additional c p (opt_record 1232 0 [padding 0]) = Ok p0 /\ packet_byte_size c p0 = Ok n0 /\
  add_additional c p (opt_record 1232 0 [padding (missing 128 n0)]) = Ok p1 /\ packet_to_bytes c p1 = Ok out1 /\ (length out1 mod 128 <> 0)%nat.
Proof.
  intros c. exists (pad_query ex_www). assert (O : packet_ok c (pad_query ex_www)) by apply pad_query_ok.
  destruct c as [[|] [|] [|]]; do 4 eexists; (split; [exact O|split; [reflexivity|split; [vm_compute; reflexivity|split; [vm_compute; reflexivity|split; [vm_compute; reflexivity|split; [vm_compute; reflexivity|vm_compute; discriminate]]]]]]).
Qed.

(** A query with an option before the padding, and with the padding first. *)
Example C135_ex : exists p0 p1 out0, let p := pad_query ex_www in let m := [(10, [1; 2; 3])] in
  packet_ok ex_cfg p /\ counts_of p = true_counts p /\ hash_separates ex_hash (packet_names p) /\ NoDup (12 :: map fst m) /\
  add_additional ex_cfg p (opt_record 1232 0 (m ++ [padding 0])) = Ok p0 /\ packet_to_bytes_compressed ex_cfg ex_hash p0 = Ok out0 /\ length out0 = 55%nat /\ missing 128 55 = 73%nat /\
  add_additional ex_cfg p (opt_record 1232 0 (padding 73 :: m)) = Ok p1 /\ (exists out1, packet_to_bytes_compressed ex_cfg ex_hash p1 = Ok out1 /\ length out1 = 128%nat) /\ blocks_for 128 55 1.
Proof.
  do 3 eexists. cbv zeta. split; [apply pad_query_ok|]. split; [reflexivity|]. split; [apply separates_b_true; vm_compute; reflexivity|].
  split; [repeat constructor; cbn; intuition discriminate|]. split; [vm_compute; reflexivity|]. split; [vm_compute; reflexivity|]. split; [reflexivity|]. split; [reflexivity|]. split; [vm_compute; reflexivity|].
  split; [eexists; split; [vm_compute; reflexivity|reflexivity]|]. split; [lia|]. intros j J. lia.
Qed.
Example C135_ex_plain : exists p1 out1 q, packet_plain_ok ex_cfg (pad_query ex_www) /\ add_additional ex_cfg (pad_query ex_www) (opt_record 1232 0 [padding 0; (10, [1; 2])]) = Ok p1 /\
  packet_to_bytes ex_cfg p1 = Ok out1 /\ byte_list out1 /\ packet_try_from ex_cfg out1 = Ok q.
Proof.
  do 3 eexists. split; [destruct (pad_query_ok ex_cfg) as (A & B & _); split; [exact A|split; [exact B|constructor]]|]. split; [vm_compute; reflexivity|]. split; [vm_compute; reflexivity|].
  split; [unfold byte_list|vm_compute; reflexivity]. repeat (apply Forall_cons; [reflexivity|]). apply Forall_nil.
Qed.
Print Assumptions C135_padded_partial.
Print Assumptions C135_alike.
Print Assumptions C135_plain_refuted.
Print Assumptions C135_size_refuted.
