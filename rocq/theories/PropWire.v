(** * Properties C27, C34 (exact, without the parsers of record data) and C65: conforming messages are understood *)
From Coq Require Import Lia ZifyNat ZifyN.
From Verif Require Import Base Utf8 Buffer Fqdn Header Types RDataBasic Bitmap Svcb RDataSec RData Packet BaseFacts NameSpec FqdnFacts
  CodeSpec RDataSpec HeaderSpec WireSpec WireFacts RecordSpec RecordProps PacketFacts PacketProps SvcbParse FailSpec FieldSpec LayoutSpec ReadSpec ReadFacts InteropSpec InteropFacts InteropPacket InteropProps
  PropName PropRecord PropPacket.

(** ** C27 and C34 *)
Theorem C27_exact : forall (c : cfg) (d : bytes) (p : nat) (r : rr) (e : nat), byte_list d -> allocatable d -> (p <= length d)%nat ->
  (rr_try_from c (mkbuf d p) = (Ok r, mkbuf d e) <-> record_on_wire c d p r e).
Proof. intros c d p r e B A L. rewrite record_iff by assumption. apply record_wire; assumption. Qed.
(** The data of each type: its pieces, in order, within the octets of the record. *)
Theorem C27_data : forall (c : cfg) (t : rtype) (d : bytes) (p : nat) (x : rdata) (b : buf), byte_list d -> allocatable d -> (p <= length d)%nat ->
  rdata_from c t (mkbuf d p) = (Ok x, b) <-> exists e, (rdata_type x = t /\ laid (pieces d c x) p e) /\ (e <= length d)%nat /\ b = mkbuf d e.
Proof. intros c t d p x b B A L. apply (rdata_iff c d B t A p L). Qed.
Theorem C34_exact : forall (c : cfg) (d : bytes) (p : packet), byte_list d -> allocatable d ->
  (packet_try_from c d = Ok p <-> exists e, packet_on_wire c d p e).
Proof.
  intros c d p B A. rewrite packet_iff by exact B. split; intros (e & H); exists e; apply (packet_wire c d p e B A), H.
Qed.
Definition ex_message : bytes := Eval vm_compute in ex_bytes (packet_to_bytes_compressed ex_cfg ex_hash ex_packet).
Example C27_ex_exact : byte_list ex_message /\ allocatable ex_message /\ packet_on_wire ex_cfg ex_message ex_packet 105 /\
  exists e, record_on_wire ex_cfg ex_message 33 ex_rr e.
Proof.
  assert (B : byte_list ex_message) by (vm_compute; repeat constructor). assert (A : allocatable ex_message) by (vm_compute; discriminate).
  split; [exact B|]. split; [exact A|].
  assert (W : packet_on_wire ex_cfg ex_message ex_packet 105).
  { apply packet_wire; [exact B|exact A|]. destruct (proj1 (C34_cursor ex_cfg ex_message ex_packet (mkbuf ex_message 105) B)) as (e & H & E).
    - vm_compute. reflexivity.
    - injection E as <-. exact H. }
  split; [exact W|]. destruct W as (_ & _ & _ & _ & _ & e1 & e2 & e3 & Q & R & _).
  inversion R as [|p x m xs e H L R']; subst. exists m.
  assert (e1 = 33%nat) as <-; [|exact H].
  inversion Q as [|p y k ys e' H' L' Q']; subst. inversion Q'; subst. apply (question_read _ _ _ _ _) in H'.
  vm_compute in H'. injection H' as H'. symmetry. exact H'.
Qed.
Print Assumptions C27_exact.
Print Assumptions C27_data.
Print Assumptions C34_exact.

(** ** C65: false, in several ways

    [misread c d p]: the message [d] is laid out as the RFCs lay out [p] (without reference to the parser), the API can express [p], and [d] does not parse to [p].
    [misunderstood c d t fs r]: the message [d] has one answer of type [t] with the fields [fs] and parses to [r]. *)

(** RFC 4255: the fingerprint has no length octet; the parser takes its first octet for one. *)
Theorem C65_sshfp_refuted : forall c : cfg, exists d fp, misread c d (answer SSHFP (DSSHFP (mkSshfp AlgRSA FpSHA1 fp))).
Proof. exact sshfp_misread. Qed.
Theorem C65_sshfp_altered_refuted : forall c : cfg, exists d fp fp', fp <> fp' /\ misread c d (answer SSHFP (DSSHFP (mkSshfp AlgRSA FpSHA1 fp))) /\
  packet_try_from c d = Ok (answer SSHFP (DSSHFP (mkSshfp AlgRSA FpSHA1 fp'))).
Proof. exact sshfp_altered. Qed.
(** RFC 4025, 2.5: no gateway, no octets; the parser skips one, so the key loses its first octet. *)
Theorem C65_gateway_refuted : forall c : cfg, exists d pk pk', misread c d (answer IPSECKEY (DIPSECKEY (mkIpsec 1 AlgReserved GwNone pk))) /\
  packet_try_from c d = Ok (answer IPSECKEY (DIPSECKEY (mkIpsec 1 AlgReserved GwNone pk'))) /\ pk' = tl pk.
Proof. exact gateway_misread. Qed.
(** RFC 4025, 2.4: 1 is DSA; the parser says RSA. *)
Theorem C65_key_algorithm_refuted : forall c : cfg, exists d pk, misread c d (answer IPSECKEY (DIPSECKEY (mkIpsec 1 AlgDSA (GwV4 1) pk))) /\
  packet_try_from c d = Ok (answer IPSECKEY (DIPSECKEY (mkIpsec 1 AlgRSA (GwV4 1) pk))).
Proof. exact key_algorithm_misread. Qed.
(** RFC 3123: 10.0.0.0/8 has the one address octet 10; the parser makes 0.0.0.0/8 of it. *)
Theorem C65_apl_refuted : forall c : cfg, exists d, misread c d (answer APL (DAPL (mkApl 8 false (AfdV4 167772160)))) /\
  packet_try_from c d = Ok (answer APL (DAPL (mkApl 8 false (AfdV4 0)))).
Proof. exact apl_misread. Qed.
(** RFC 7344: CDS has the number 59; the parser does not know it, though the API has the type. *)
Theorem C65_cds_refuted : forall c : cfg, dnssec c = true -> exists d dg, misread c d (answer CDS (DCDS (mkDs 1 RSA_SHA256 DtSHA256 dg))) /\
  packet_try_from c d = Err (InvalidType 59).
Proof. exact cds_misread. Qed.
(** RFC 1035, 3.3.14: character-strings are octets; what is not UTF-8 is replaced. *)
Theorem C65_txt_refuted : forall c : cfg, exists d s s', misunderstood c d 16 [CharString s] (Ok (answer TXT (DTXT [s']))) /\ s' <> s.
Proof. exact txt_misread. Qed.
(** RFC 3597, 3: a record of an unknown type is to be kept as it is; the parser rejects the whole message. *)
Theorem C65_unknown_type_refuted : forall c : cfg, exists d b, misunderstood c d 65280 [Octets b] (Err (InvalidType 65280)).
Proof. exact unknown_type_misread. Qed.
(** RFC 9460, 7.3: an ipv4hint is a list of addresses; with two of them the message is rejected. *)
Theorem C65_hints_refuted : forall c : cfg, exists d,
  misunderstood c d 64 [Number 2 1; DomainName []; Number 2 4; Prefixed 2 [Number 4 167772161; Number 4 167772162]] (Err (InvalidSvcbParam 2560)).
Proof. exact hints_misread. Qed.
(** RFC 4034, 4.1.2: a bitmap that contains a type the parser does not know (here 7, MB) makes it reject the message. *)
Theorem C65_bitmap_refuted : forall c : cfg, dnssec c = true -> exists d ws, windows_ok ws /\ windows_minimal ws /\
  misunderstood c d 47 [DomainName []; Octets (flat_map window_octets ws)] (Err (InvalidType 7)).
Proof. exact nsec_misread. Qed.
(** All others are understood: with names written in full or compressed in any way RFC 1035 allows, and whatever follows the message. *)
Theorem C65_message_partial : forall (c : cfg) (d : bytes) (p : packet) (e : nat), byte_list d -> allocatable d ->
  header_typed (p_header p) -> counts_of p = true_counts p -> Forall (question_understood c) (p_questions p) -> Forall (record_understood c) (records_of p) ->
  fields_at d (message_fields c p) 0 e -> packet_try_from c d = Ok p.
Proof. intros c d p e B A. apply message_understood; assumption. Qed.
Theorem C65_record_partial : forall (c : cfg) (d : bytes) (p : nat) (r : rr) (e : nat), byte_list d -> allocatable d -> (p <= length d)%nat -> record_understood c r ->
  fields_at d (record_fields c r) p e -> rr_try_from c (mkbuf d p) = (Ok r, mkbuf d e).
Proof. intros c d p r e B A L U F. apply C27_exact; [assumption..|]. apply (record_there c d B); assumption. Qed.
Theorem C65_question : forall (c : cfg) (d : bytes) (p : nat) (q : question) (e : nat), byte_list d -> question_understood c q ->
  fields_at d (question_fields c q) p e -> question_try_from c (mkbuf d p) = (Ok q, mkbuf d e).
Proof. intros c d p q e B U F. apply question_read. apply (question_there c d B); assumption. Qed.
Example C65_ex : header_typed (p_header ex_packet) /\ counts_of ex_packet = true_counts ex_packet /\ Forall (question_understood ex_cfg) (p_questions ex_packet) /\
  Forall (record_understood ex_cfg) (records_of ex_packet) /\ fields_at ex_message (message_fields ex_cfg ex_packet) 0 105.
Proof.
  split; [repeat split; reflexivity|]. split; [reflexivity|]. split; [repeat constructor; discriminate|].
  split; [repeat constructor; try discriminate|]. cbv [ex_message]. start. place.
Qed.
Print Assumptions C65_sshfp_refuted.
Print Assumptions C65_sshfp_altered_refuted.
Print Assumptions C65_gateway_refuted.
Print Assumptions C65_key_algorithm_refuted.
Print Assumptions C65_apl_refuted.
Print Assumptions C65_cds_refuted.
Print Assumptions C65_txt_refuted.
Print Assumptions C65_unknown_type_refuted.
Print Assumptions C65_hints_refuted.
Print Assumptions C65_bitmap_refuted.
Print Assumptions C65_message_partial.
Print Assumptions C65_record_partial.
Print Assumptions C65_question.
