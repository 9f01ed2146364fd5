(** * Specification: well-formed questions, records and packets. *)
From Verif Require Import Base Buffer Fqdn Header Types RDataBasic Bitmap Svcb RDataSec RData Packet BaseFacts
  FqdnFacts CodeSpec RDataSpec HeaderSpec.

(** A question that has a wire form of its own: legal labels, a readable type, and the unicast flag only
    in builds that have it. *)
Definition question_ok (c : cfg) (q : question) : Prop :=
  fqdn_ok (q_name q) /\ qdecodable c (q_type q) /\ (mdns c = false -> q_unicast q = false).

(** The same for a record, apart from its data. *)
Definition rr_head_ok (c : cfg) (r : rr) : Prop :=
  fqdn_ok (rr_name r) /\ decodable c (rr_type r) /\ rr_type r = rdata_type (rr_data r) /\
  rclass_plain (rr_class r) /\ U32 (rr_ttl r) /\ (mdns c = false -> rr_flush r = false).
(** ... and with its data. *)
Definition rr_ok (c : cfg) (r : rr) : Prop :=
  rr_head_ok c r /\ rdata_typed c (rr_data r) /\ rdata_fits c (rr_data r).
(** The plain writer takes RDLENGTH from [byte_size], which must be right and fit 16 bits. *)
Definition rr_plain_ok (c : cfg) (r : rr) : Prop :=
  rr_ok c r /\ size_exact (rr_data r) /\
  forall bs, rdata_to_bytes c (rr_data r) = Ok bs -> N.of_nat (length bs) <= 65535.

(** The four counts of a header. *)
Definition counts_of (p : packet) : N * N * N * N :=
  let h := p_header p in (ques_count h, ans_count h, auth_count h, add_count h).
Definition true_counts (p : packet) : N * N * N * N :=
  (N.of_nat (length (p_questions p)), N.of_nat (length (p_answers p)),
   N.of_nat (length (p_authorities p)), N.of_nat (length (p_additionals p))).
(** Sections no longer than a count can say. *)
Definition small_sections (p : packet) : Prop :=
  N.of_nat (length (p_questions p)) <= 65535 /\ N.of_nat (length (p_answers p)) <= 65535 /\
  N.of_nat (length (p_authorities p)) <= 65535 /\ N.of_nat (length (p_additionals p)) <= 65535.
Definition records_of (p : packet) : list rr := p_answers p ++ p_authorities p ++ p_additionals p.
Definition packet_ok (c : cfg) (p : packet) : Prop :=
  header_typed (p_header p) /\ Forall (question_ok c) (p_questions p) /\ Forall (rr_ok c) (records_of p).
Definition packet_plain_ok (c : cfg) (p : packet) : Prop :=
  header_typed (p_header p) /\ Forall (question_ok c) (p_questions p) /\ Forall (rr_plain_ok c) (records_of p).

(** The packet with its counts put right. *)
Definition recount (p : packet) : packet :=
  let h := p_header p in
  mkPacket (mkheader (id h) (hflags h) (N.of_nat (length (p_questions p))) (N.of_nat (length (p_answers p)))
                     (N.of_nat (length (p_authorities p))) (N.of_nat (length (p_additionals p))))
           (p_questions p) (p_answers p) (p_authorities p) (p_additionals p).

(** The names a packet contains where the compressed form may write pointers. *)
Definition rdata_names (d : rdata) : list fqdn :=
  match d with
  | DNS f | DCNAME f | DPTR f => [f]
  | DSOA x => [soa_mname x; soa_rname x]
  | DMINFO x => [minfo_r x; minfo_e x]
  | DMX x => [mx_exchange x]
  | DSRV x => [srv_target x]
  | DNAPTR x => [na_repl x]
  | DNSEC x => [ns_next x]
  | _ => []
  end.
Definition rr_names (r : rr) : list fqdn := rr_name r :: rdata_names (rr_data r).
Definition packet_names (p : packet) : list fqdn :=
  map q_name (p_questions p) ++ flat_map rr_names (records_of p).

(** Packets as the Rust types allow them, and packets whose data can be written. *)
Definition packet_typed (c : cfg) (p : packet) : Prop := Forall (fun r => rdata_typed c (rr_data r)) (records_of p).
Definition packet_writable (c : cfg) (p : packet) : Prop := Forall (fun r => rdata_writable c (rr_data r)) (records_of p).

(** Which parsed data survives being written: everything but SSHFP, and strings that grew because they
    were not valid UTF-8. *)
Definition keeps_data (d : rdata) : Prop :=
  match d with
  | DSSHFP _ => False
  | DTXT l => Forall short l
  | DCAA x => short (caa_tag x)
  | _ => True
  end.
