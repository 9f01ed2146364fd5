(** * C85: how much work it is to write the compressed form.

    [packet_hashed c h p] (Work.v) lists what is handed to the hash function while the packet [p] is written; [total_octets] adds up what that reads. *)
From Coq Require Import Lia ZifyNat ZifyN.
From Verif Require Import Base Buffer Fqdn Header Types RDataBasic Bitmap Svcb RDataSec RData Packet Work BaseFacts NameSpec FqdnFacts ChunkFacts CompressSpec RecordSpec ObjectSpec HeldSpec LayoutSpec
  PacketFacts SipHash WorkFacts PropName PropRecord PropPacket PropWire PropHeld PropHash.

(** Nothing is missing from the list: the result depends on the hash function through the hashes of the listed names only. *)
Theorem C85_counted : forall (c : cfg) (h h' : hasher) (p : packet), (forall f, In f (packet_hashed c h p) -> h f = h' f) ->
  packet_to_bytes_compressed c h' p = packet_to_bytes_compressed c h p.
Proof. exact packet_agree. Qed.
(** Hashing a name reads as many octets as the hash function is given. *)
Theorem C85_octets : forall f : fqdn, hash_octets f = N.of_nat (length (hash_stream f)).
Proof.
  intros f. unfold hash_stream. rewrite app_length, le_length. induction f as [|l f IH]; [reflexivity|]. rewrite hash_cons, IH. cbn [flat_map]. rewrite !app_length, le_length. lia.
Qed.
(** With names that keep the limits of RFC 1035 the work is in proportion to what is written. *)
Theorem C85_bound_partial : forall (c : cfg) (h : hasher) (p : packet) (b : bytes), Forall rfc_sizes (packet_names p) -> packet_to_bytes_compressed c h p = Ok b ->
  total_octets (packet_hashed c h p) <= 2040 * N.of_nat (length b).
Proof. intros c h p b R E. apply (packet_work c h 2040 p b); [|exact E]. eapply Forall_impl; [|exact R]. exact rfc_octets. Qed.
(** With any names, in proportion to the product of what is written and the longest name. *)
Theorem C85_any_partial : forall (c : cfg) (h : hasher) (p : packet) (b : bytes) (longest : N), Forall (fun f => hash_octets f <= longest) (packet_names p) ->
  packet_to_bytes_compressed c h p = Ok b -> total_octets (packet_hashed c h p) <= longest * N.of_nat (length b).
Proof. intros c h p b k. exact (packet_work c h k p b). Qed.

(** Not in proportion in general: the library sets no limit to the number of labels, and hashes every tail of a name. *)
Definition one_name (k : nat) : packet := mkPacket (mkheader 0 (hflags (header_new_reply 0 StandardQuery)) 1 0 0 0) [growing_question k] [] [] [].
Lemma name_not_longer h k : forall m off, (length (fst (fqdn_to_bytes_compressed h (repeat [97]%N k) m off)) <= 2 * k + 1)%nat.
Proof.
  induction k as [|k IH]; intros m off; cbn [repeat fqdn_to_bytes_compressed]; [cbn; lia|]. destruct (names_get _ m); [cbn; lia|].
  match goal with |- context [fqdn_to_bytes_compressed h (repeat [97] k) ?m ?o] => specialize (IH m o); destruct (fqdn_to_bytes_compressed h (repeat [97] k) m o) as [bs m'] end.
  cbn [fst length app] in *. lia.
Qed.
Lemma question_least c h q qs rest m bin : total_octets (question_hashed h q m (length bin)) <= total_octets (questions_hashed c h (q :: qs) bin m ++ rest).
Proof. cbn [questions_hashed]. rewrite !total_app. lia. Qed.
Lemma labels_least c h p k qs : p_questions p = growing_question k :: qs -> hash_separates h [repeat [97]%N k] ->
  9 * N.of_nat k * N.of_nat k + 25 * N.of_nat k <= 2 * total_octets (packet_hashed c h p).
Proof.
  intros Q S. rewrite <- one_letter_octets. unfold packet_hashed. cbv zeta. rewrite Q.
  match goal with |- context [questions_hashed c h _ ?bin ?m ++ ?rest] => pose proof (question_least c h (growing_question k) qs rest m bin) as L end.
  unfold question_hashed in L. cbn [growing_question question_new q_name] in L. rewrite tails_hashed in L; [|reflexivity|exact S]. lia.
Qed.
Theorem C85_linear_refuted : forall (c : cfg) (factor : N), exists p : packet, forall h : hasher, hash_separates h (packet_names p) ->
  exists b, packet_to_bytes_compressed c h p = Ok b /\ factor * N.of_nat (length b) < total_octets (packet_hashed c h p).
Proof.
  intros c n. set (k := N.to_nat (12 * n + 1)). exists (one_name k). intros h S.
  pose proof (labels_least c h (one_name k) k [] eq_refl S) as L. pose proof (name_not_longer h k [] 12%nat) as M.
  unfold packet_to_bytes_compressed, one_name at 1. cbn [p_questions p_header p_answers p_authorities p_additionals questions_compressed records_compressed rbind].
  unfold question_to_bytes_compressed. cbn [growing_question question_new q_name]. change (length (header_to_bytes _)) with 12%nat.
  destruct (fqdn_to_bytes_compressed h (repeat [97] k) [] 12) as [nb m']. cbn [fst snd rbind] in *. eexists. split; [reflexivity|].
  eapply N.le_lt_trans with (n * (2 * N.of_nat k + 17)).
  - apply N.mul_le_mono_l. cbn [fst]. rewrite !app_length, !be_length. change (length (header_to_bytes _)) with 12%nat. lia.
  - subst k. nia.
Qed.
(** The longest message that UDP or TCP carries can contain one name of 32759 labels.  Whoever sends a packet with that name in it, for example a reply with the question,
    has the computer hash 4.8 gigabytes. *)
Theorem C85_largest_refuted : forall c : cfg, exists (d : bytes) (p : packet), packet_try_from c d = Ok p /\ N.of_nat (length d) = 65535 /\
  forall h, hash_separates h (packet_names p) -> 4829593852 <= total_octets (packet_hashed c h p).
Proof.
  intros c. destruct (growing_read c (N.to_nat 32759) 0) as (p & E & _ & Q); [lia|]. eexists. exists p. split; [exact E|]. rewrite growing_length. split; [lia|].
  intros h S. pose proof (labels_least c h p _ [] Q) as L. 
  assert (S' : hash_separates h [repeat [97] (N.to_nat 32759)]).
  { assert (T : forall s, tail_of [repeat [97] (N.to_nat 32759)] s -> tail_of (packet_names p) s).
    { intros s (N & f & a & [<-|[]] & Ef). split; [exact N|]. exists (repeat [97] (N.to_nat 32759)), a. split; [|exact Ef].
      unfold packet_names. apply in_or_app. left. rewrite Q. left. reflexivity. }
    intros s1 s2 T1 T2. apply S; apply T; assumption. }
  specialize (L S'). lia.
Qed.
(** With the hash the library uses. *)
Example C85_ex : Forall rfc_sizes (packet_names ex_packet) /\ hash_separates hash_fqdn (packet_names ex_packet) /\
  (exists b, packet_to_bytes_compressed ex_cfg hash_fqdn ex_packet = Ok b /\ length b = 105%nat) /\ total_octets (packet_hashed ex_cfg hash_fqdn ex_packet) = 402.
Proof.
  split; [repeat constructor; cbn; lia|]. split; [apply separates_b_true; vm_compute; reflexivity|]. split; [eexists; split; [vm_compute; reflexivity|reflexivity]|].
  vm_compute. reflexivity.
Qed.
Example C85_ex_long : hash_separates hash_fqdn (packet_names (one_name 12)) /\ total_octets (packet_hashed ex_cfg hash_fqdn (one_name 12)) = 798.
Proof. split; [apply separates_b_true; vm_compute; reflexivity|vm_compute; reflexivity]. Qed.
Print Assumptions C85_counted.
Print Assumptions C85_octets.
Print Assumptions C85_bound_partial.
Print Assumptions C85_any_partial.
Print Assumptions C85_linear_refuted.
Print Assumptions C85_largest_refuted.
