(** * C71, C72: messages cut short; different packets. *)
From Coq Require Import Lia ZifyNat ZifyN.
From Verif Require Import Base Buffer Fqdn Header Types RDataBasic Bitmap Svcb RDataSec RData Packet CodeSpec CompressSpec RecordSpec BaseFacts BufferFacts NameSpec HeaderSpec WireSpec
  SvcbParse RecordProps PacketFacts WireFacts ParseFacts ReadSpec ReadFacts PropName PropRecord PropPacket PropWire.

Lemma cut_rejected c d p e k p' : byte_list d -> packet_at c d p e -> (k < e)%nat -> packet_try_from c (firstn k d) <> Ok p'.
Proof.
  intros B H L E. assert (B' : byte_list (firstn k d)) by (rewrite <- (firstn_skipn k d) in B; apply Forall_app in B; apply B).
  pose proof (ok_packet c (firstn k d) 0%nat B' (Nat.le_0_l _)) as R. unfold packet_try_from, buf_from in E.
  destruct (packet_try_from_buf c (mkbuf (firstn k d) 0)) as [r b] eqn:Eb. cbn [fst] in E. subst r. destruct R as (_ & P & _).
  apply (packet_got c (firstn k d) p' b B') in Eb as (e' & H' & ->). cbn [pos data] in P. rewrite firstn_length in P.
  apply (packet_at_ext c (firstn k d) (skipn k d)) in H'. rewrite firstn_skipn in H'. apply packet_read in H, H'. rewrite H in H'. injection H' as _ ->. lia.
Qed.
Lemma read_to_end c bs p : byte_list bs -> reads [] [] (packet_try_from_buf c) bs p -> packet_at c bs p (length bs).
Proof.
  Transparent reads. intros B R. unfold reads in R. cbn [app length] in R. rewrite app_nil_r in R. apply (packet_got c bs p _ B) in R as (e & H & E).
  injection E as E. rewrite E. exact H. Opaque reads.
Qed.

(** ** C71 *)
(** No message that ends before the packet does is accepted, as this or any other packet. *)
Theorem C71_cut : forall (c : cfg) (d : bytes) (p p' : packet) (e k : nat), byte_list d -> allocatable d ->
  packet_on_wire c d p e -> (k < e)%nat -> packet_try_from c (firstn k d) <> Ok p'.
Proof. intros c d p p' e k B A H. apply cut_rejected with (p := p); [exact B|]. apply packet_wire; assumption. Qed.
(** In particular no beginning of a message written by the library (where reading back is right: C28, C29). *)
Theorem C71_written_plain : forall (c : cfg) (p p' : packet) (bs : bytes) (k : nat), byte_list bs -> packet_plain_ok c p -> small_sections p ->
  packet_to_bytes c p = Ok bs -> (k < length bs)%nat -> packet_try_from c (firstn k bs) <> Ok p'.
Proof.
  intros c p p' bs k B H S E L. destruct (reads_packet c p H S) as (bs' & E' & R). rewrite E in E'. injection E' as <-.
  apply (cut_rejected c bs (recount p) (length bs)); [exact B|apply read_to_end; [exact B|apply R]|exact L].
Qed.
Theorem C71_written_compressed : forall (c : cfg) (h : hasher) (p p' : packet) (bs : bytes) (k : nat), byte_list bs ->
  packet_ok c p -> counts_of p = true_counts p -> hash_separates h (packet_names p) -> packet_to_bytes_compressed c h p = Ok bs ->
  N.of_nat (length bs) <= 16384 -> (k < length bs)%nat -> packet_try_from c (firstn k bs) <> Ok p'.
Proof.
  intros c h p p' bs k B H C S E M L. apply (cut_rejected c bs p (length bs)); [exact B|apply read_to_end; [exact B|]|exact L].
  apply (compressed_packet c h (tail_of (packet_names p)) S p bs H C (names_in_self _) E M).
Qed.
Example C71_ex : byte_list ex_message /\ allocatable ex_message /\ packet_on_wire ex_cfg ex_message ex_packet 105 /\ length ex_message = 105%nat /\
  packet_try_from ex_cfg (firstn 104 ex_message) = Err LengthViolation.
Proof. destruct C27_ex_exact as (B & A & W & _). split; [exact B|]. split; [exact A|]. split; [exact W|]. split; vm_compute; reflexivity. Qed.
(** Octets behind the end of the packet may still matter: a name can lead out of it.  Here a pointer leads into a label of its own
    name, whose octets are then lengths: the packet ends at 22, but with 22 to 34 octets it is not accepted. *)
Definition leads_out : bytes := [0;0; 0;0; 0;1; 0;0; 0;0; 0;0; 3;20;1;1; 192;13; 0;1; 0;1] ++ repeat 97 12 ++ [0].
Theorem C71_behind_refuted : forall c : cfg, exists p p', byte_list leads_out /\ packet_on_wire c leads_out p 22 /\
  packet_try_from c (leads_out) = Ok p /\ packet_try_from c (firstn 22 leads_out ++ repeat 98 12 ++ [0]) = Ok p' /\ p <> p' /\
  forall k p'', (k < 35)%nat -> packet_try_from c (firstn k leads_out) <> Ok p''.
Proof.
  intros c. assert (B : byte_list leads_out) by (repeat constructor). assert (A : allocatable leads_out) by (vm_compute; discriminate).
  assert (X : exists p, packet_try_from_buf c (buf_from leads_out) = (Ok p, mkbuf leads_out 22) /\
    exists p', packet_try_from c (firstn 22 leads_out ++ repeat 98 12 ++ [0]) = Ok p' /\ p <> p').
  { eexists. split; [destruct c as [[|] [|] o]; vm_compute; reflexivity|]. eexists. split; [destruct c as [[|] [|] o]; vm_compute; reflexivity|]. discriminate. }
  destruct X as (p & E & p' & E' & N). exists p, p'. split; [exact B|].
  split; [apply packet_wire; [exact B|exact A|]; apply (packet_got c leads_out p _ B) in E as (e & H & K); injection K as ->; exact H|].
  split; [unfold packet_try_from; rewrite E; reflexivity|]. split; [exact E'|]. split; [exact N|].
  intros k p'' L. do 35 (destruct k as [|k]; [destruct c as [[|] [|] o]; vm_compute; discriminate|]). lia.
Qed.
Print Assumptions C71_cut.
Print Assumptions C71_written_plain.
Print Assumptions C71_written_compressed.
Print Assumptions C71_behind_refuted.

(** ** C72 *)
(** Two packets with the same octets, in any of the forms, are the same packet, up to the section counts stored in the header of a packet
    written plainly (which are not written, see C33). *)
Definition same_but_counts (p p' : packet) : Prop :=
  id (p_header p) = id (p_header p') /\ hflags (p_header p) = hflags (p_header p') /\ p_questions p = p_questions p' /\
  p_answers p = p_answers p' /\ p_authorities p = p_authorities p' /\ p_additionals p = p_additionals p'.
Theorem C72_plain_partial : forall (c : cfg) (p p' : packet) (bs : bytes), packet_plain_ok c p -> small_sections p -> packet_plain_ok c p' -> small_sections p' ->
  packet_to_bytes c p = Ok bs -> packet_to_bytes c p' = Ok bs -> same_but_counts p p'.
Proof.
  intros c p p' bs H S H' S' E E'. destruct (packet_roundtrip c p H S) as (b1 & E1 & R1), (packet_roundtrip c p' H' S') as (b2 & E2 & R2).
  rewrite E in E1. rewrite E' in E2. injection E1 as <-. injection E2 as <-. specialize (R1 []). rewrite R2 in R1. unfold recount in R1. injection R1. intros.
  repeat split; congruence.
Qed.
Theorem C72_compressed_partial : forall (c : cfg) (h h' : hasher) (p p' : packet) (bs : bytes),
  packet_ok c p -> counts_of p = true_counts p -> hash_separates h (packet_names p) ->
  packet_ok c p' -> counts_of p' = true_counts p' -> hash_separates h' (packet_names p') -> N.of_nat (length bs) <= 16384 ->
  packet_to_bytes_compressed c h p = Ok bs -> packet_to_bytes_compressed c h' p' = Ok bs -> p = p'.
Proof.
  intros c h h' p p' bs H C S H' C' S' L E E'. pose proof (packet_compressed c h p bs H C S E L []) as R. rewrite (packet_compressed c h' p' bs H' C' S' E' L []) in R. congruence.
Qed.
Theorem C72_mixed_partial : forall (c : cfg) (h : hasher) (p p' : packet) (bs : bytes), packet_plain_ok c p -> small_sections p ->
  packet_ok c p' -> counts_of p' = true_counts p' -> hash_separates h (packet_names p') -> N.of_nat (length bs) <= 16384 ->
  packet_to_bytes c p = Ok bs -> packet_to_bytes_compressed c h p' = Ok bs -> same_but_counts p p'.
Proof.
  intros c h p p' bs H S H' C' S' L E E'. destruct (packet_roundtrip c p H S) as (b1 & E1 & R1). rewrite E in E1. injection E1 as <-. specialize (R1 []).
  rewrite (packet_compressed c h p' bs H' C' S' E' L []) in R1. injection R1 as ->. repeat split.
Qed.
(** Not of all packets: names with an empty label, and class numbers under another name. *)
Theorem C72_refuted : forall (c : cfg) (h : hasher), exists (p p' : packet) (bs : bytes), p <> p' /\ counts_of p = true_counts p /\ counts_of p' = true_counts p' /\
  packet_to_bytes c p = Ok bs /\ packet_to_bytes c p' = Ok bs /\ packet_to_bytes_compressed c h p = Ok bs /\ packet_to_bytes_compressed c h p' = Ok bs.
Proof.
  intros c h. exists (mkPacket (mkheader 0 (hflags header_default) 0 1 0 0) [] [mkRR [] A false CIN 0 (DA 1)] [] []),
    (mkPacket (mkheader 0 (hflags header_default) 0 1 0 0) [] [mkRR [] A false (UdpPayloadSize 1) 0 (DA 1)] [] []). eexists.
  split; [discriminate|]. split; [reflexivity|]. split; [reflexivity|]. destruct c as [[|] [|] o]; repeat split; vm_compute; reflexivity.
Qed.
Example C72_ex : packet_plain_ok ex_cfg ex_packet /\ small_sections ex_packet /\ packet_ok ex_cfg ex_packet /\ counts_of ex_packet = true_counts ex_packet /\
  hash_separates ex_hash (packet_names ex_packet).
Proof. split; [exact ex_packet_plain|]. split; [repeat split; discriminate|]. destruct C29_ex as (H & C & S & _). auto. Qed.
Print Assumptions C72_plain_partial.
Print Assumptions C72_compressed_partial.
Print Assumptions C72_mixed_partial.
Print Assumptions C72_refuted.
