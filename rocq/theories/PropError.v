(** * C67: the error of a rejected message names the first thing that is wrong *)
From Coq Require Import Lia.
From Verif Require Import Base Buffer Fqdn Types RDataBasic Svcb RDataSec RData Packet BaseFacts NameSpec CodeSpec WireSpec FailSpec FieldSpec SvcbParse ReadSpec StopSpec StopFacts PropWire ErrSpec ErrFacts.

(** Parsing a message returns the error [e] exactly if [message_fault] says so: everything in front of
    some part can be read, and [e] is the error of that part.  The specification is about the raw octets only. *)
Theorem C67_exact_partial : forall (c : cfg) (d : bytes) (e : dns_error), byte_list d -> allocatable d ->
  (packet_try_from c d = Err e <-> message_fault c d e).
Proof. exact message_errs_iff. Qed.
(** The same for the data of a record of type [t] at [q]. *)
Theorem C67_data_exact_partial : forall (c : cfg) (t : rtype) (w : bytes) (q : nat) (e : dns_error), byte_list w -> allocatable w -> (q <= length w)%nat ->
  (fst (rdata_from c t (mkbuf w q)) = Err e <-> first_fault (data_parts c w t) e q).
Proof. intros c t w q e B A L. exact (rdata_errs c w B A t e q L). Qed.
(** Together with C34 and C36: each message is read as exactly one packet, or has exactly one fault, or
    stops the parser in exactly one way. *)
Theorem C67_cases_partial : forall (c : cfg) (d : bytes) (r : res packet), byte_list d -> allocatable d ->
  packet_try_from c d = r <-> match r with
    | Ok p => exists e, packet_on_wire c d p e
    | Err e => message_fault c d e
    | Panic => message_stops Panics c d
    | Diverge => message_stops Loops c d
    end.
Proof.
  intros c d [p|e| |] B A.
  - apply C34_exact; assumption.
  - apply C67_exact_partial; assumption.
  - apply (message_stops_iff Panics); assumption.
  - apply (message_stops_iff Loops); assumption.
Qed.
(** Errors that are never the reason. *)
Theorem C67_kinds_partial : forall (c : cfg) (d : bytes) (e : dns_error), byte_list d -> allocatable d -> packet_try_from c d = Err e -> reported e.
Proof. intros c d e B A H. apply (message_kind c d). apply message_errs_iff; assumption. Qed.

(** ** What is not as documented (error.rs:5-79) *)
(** A message with one answer: root name, type [t], class IN, TTL 0. *)
Definition one_answer (t : N) (data : bytes) : bytes := [0; 0; 128; 0; 0; 0; 0; 1; 0; 0; 0; 0] ++ [0] ++ be 2 t ++ [0; 1; 0; 0; 0; 0] ++ be 2 (N.of_nat (length data)) ++ data.
(** "does not represent a valid algorithm type of SSHFP record data" for data of TLSA, HIP and IPSECKEY:
    nowhere in the message is there a record of type SSHFP (44). *)
Theorem C67_sshfp_refuted : forall c : cfg, exists d1 d2 d3 n1 n2 n3,
  packet_try_from c (one_answer 52 d1) = Err (InvalidSSHFPAlgorithm n1) /\ packet_try_from c (one_answer 55 d2) = Err (InvalidSSHFPAlgorithm n2) /\
  packet_try_from c (one_answer 45 d3) = Err (InvalidSSHFPAlgorithm n3).
Proof. intros [[] [] []]; exists [3; 2; 0], [0; 9; 0; 0], [0; 3; 8; 0], 2, 9, 8; vm_compute; auto. Qed.
(** A TLSA selector or matching type that is not valid has an error of its own, which is never reported. *)
Theorem C67_tlsa_refuted : forall (c : cfg) (d : bytes) (n : N), byte_list d -> allocatable d ->
  packet_try_from c d <> Err (InvalidTLSASelector n) /\ packet_try_from c d <> Err (InvalidTLSAMatchingType n).
Proof. intros c d n B A. split; intros H; apply C67_kinds_partial in H; assumption. Qed.
(** "does not represent a valid error type of TKEY record data" for a TSIG record. *)
Theorem C67_tkey_refuted : forall c : cfg, exists d n, packet_try_from c (one_answer 250 d) = Err (InvalidTkeyError n).
Proof. intros [[] [] []]; exists [0; 0; 0; 0; 0; 0; 0; 0; 0; 0; 0; 0; 0; 0; 1; 0; 0], 1; vm_compute; auto. Qed.
(** "does not adhere to some length guidelines" for a text that is not UTF-8, although all lengths are
    right: with another octet in its place the message is accepted. *)
Theorem C67_text_refuted : forall c : cfg, exists d d' p, packet_try_from c (one_answer 35 (d ++ [255] ++ d')) = Err LengthViolation /\
  packet_try_from c (one_answer 35 (d ++ [97] ++ d')) = Ok p.
Proof. intros [[] [] []]; exists [0; 1; 0; 1; 0; 0; 1], [0]; eexists; vm_compute; split; reflexivity. Qed.

(** A question that is fine, then a CAA record in which the length of the tag is 0; a bitmap that marks
    TXT, SPF (99) and 100; a label that is cut; a pointer forwards. *)
Definition ex_build : cfg := mkcfg true true true.
Example C67_ex : byte_list (one_answer 257 [0; 0; 1]) /\ allocatable (one_answer 257 [0; 0; 1]) /\
  message_fault ex_build (one_answer 257 [0; 0; 1]) InvalidPacketData /\
  message_fault ex_build (one_answer 47 ([0; 0; 13; 0; 0; 128] ++ repeat 0 9 ++ [24])) (InvalidType 99) /\
  message_fault ex_build (one_answer 5 [3; 97]) LengthViolation /\
  message_fault ex_build (one_answer 5 [192; 100]) UnresolveableCompressionPointer /\
  ~ message_fault ex_build (one_answer 5 [1; 97; 0]) LengthViolation.
Proof.
  assert (A : forall w : bytes, (length w <= 100)%nat -> allocatable w) by (intros w L; unfold allocatable, M64; lia).
  assert (X : forall w e, byte_list w -> (length w <= 100)%nat -> packet_try_from ex_build w = Err e -> message_fault ex_build w e).
  { intros w e B L H. apply message_errs_iff; [exact B|apply A, L|exact H]. }
  split; [repeat constructor|]. split; [apply A; cbn; lia|].
  repeat split; try (apply X; [repeat constructor|cbn; lia|vm_compute; reflexivity]).
  intros H. apply message_errs_iff in H; [|repeat constructor|apply A; cbn; lia]. vm_compute in H. discriminate.
Qed.
Print Assumptions C67_exact_partial.
Print Assumptions C67_data_exact_partial.
Print Assumptions C67_cases_partial.
Print Assumptions C67_kinds_partial.
Print Assumptions C67_sshfp_refuted.
Print Assumptions C67_tlsa_refuted.
Print Assumptions C67_tkey_refuted.
Print Assumptions C67_text_refuted.
