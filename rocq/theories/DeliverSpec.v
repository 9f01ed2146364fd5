(** * Specification: signed sets in messages.

    A receiver collects the records of a set from a section and checks the signature that came with them. *)
From Verif Require Import Base Buffer Fqdn Types RDataSec RData Packet Construct.

(** Owner, type and class make a set (RFC 2181, 5). *)
Definition in_set (s : rrset) (r : rr) : Prop := rr_name r = set_name s /\ rr_type r = set_type s /\ rr_class r = set_class s.
(** [l]: the data of the records of a section that belong to the set, in order. *)
Inductive gathered (s : rrset) : list rr -> list rdata -> Prop :=
| gathered_end : gathered s [] []
| gathered_in r rs l : in_set s r -> gathered s rs l -> gathered s (r :: rs) (rr_data r :: l)
| gathered_out r rs l : ~ in_set s r -> gathered s rs l -> gathered s (r :: rs) l.
(** A signature with other octets, a record with other data. *)
Definition with_signature (x : rrsig) (sg : bytes) : rrsig :=
  mkRrsig (rs_type x) (rs_alg x) (rs_labels x) (rs_ttl x) (rs_exp x) (rs_inc x) (rs_tag x) (rs_signer x) sg.
Definition carrying (r : rr) (d : rdata) : rr := mkRR (rr_name r) (rr_type r) (rr_flush r) (rr_class r) (rr_ttl r) d.
