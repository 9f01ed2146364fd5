(** * Specification: fields in their place in a message, where names may be compressed.

    [LayoutSpec] says which octets a sequence of fields is when names are written in full.  Here the
    fields stand in a message and a name is whatever RFC 1035, 4.1.4 says stands at its place. *)
From Verif Require Import Base Utf8Facts Fqdn Header Types RDataBasic Bitmap Svcb RDataSec RData Packet BaseFacts NameSpec CodeSpec HeaderSpec RDataSpec FieldSpec LayoutSpec ReadSpec.

Inductive field_at (d : bytes) : field -> nat -> nat -> Prop :=
| at_name f p e : rfc_name_at d p f e -> field_at d (DomainName f) p e
| at_prefixed w fs l p e : octets_at d p l -> length l = w -> byte_list l -> value_of l = N.of_nat (e - (p + w)) -> fields_at d fs (p + w) e ->
    field_at d (Prefixed w fs) p e
| at_other f bs p : match f with DomainName _ | Prefixed _ _ => False | _ => True end -> field_octets f bs -> octets_at d p bs ->
    field_at d f p (p + length bs)
with fields_at (d : bytes) : list field -> nat -> nat -> Prop :=
| at_end p : fields_at d [] p p
| at_more f fs p m e : field_at d f p m -> fields_at d fs m e -> fields_at d (f :: fs) p e.

(** Values of the API's types that can be received: without the exceptions of C65. *)
Definition understood (c : cfg) (x : rdata) : Prop :=
  match x with
  | DSSHFP _ => False
  | DIPSECKEY x => (ip_alg x = AlgReserved \/ ip_alg x = AlgECDSA) /\ ip_gw x <> GwNone
  | DHIP x => (hip_alg x = AlgReserved \/ hip_alg x = AlgECDSA) /\ hip_rv x <> Some []
  (* the address without its trailing zeros has an even number of octets *)
  | DAPL x => forall bs, afd_octets (afd_width (apl_afd x)) (afd_number (apl_afd x)) bs -> (length bs mod 2 = 0)%nat
  | DDS x | DCDS x => ds_dt x <> DtSHA512
  | DCAA x => caa_tag x <> []
  | DRRSIG x => decodable c (rs_type x)
  | DNSEC x => Forall (decodable c) (ns_types x)
  | DCSYNC x => Forall (decodable c) (cs_types x)
  | DSVCB x => Forall (fun p => pkey_documented (param_key p) /\ match p with PMandatory ks => Forall pkey_documented ks | _ => True end) (sv_params x)
  | DTKEY x => tkmode_documented (tk_mode x) /\ tkerr_documented (tk_err x)
  | _ => True
  end.
Definition question_understood (c : cfg) (q : question) : Prop := qdecodable c (q_type q) /\ (mdns c = false -> q_unicast q = false).
(** The class is not an alias of another one (C20), the flag exists only with mDNS. *)
Definition record_understood (c : cfg) (r : rr) : Prop :=
  decodable c (rr_type r) /\ rdata_type (rr_data r) = rr_type r /\ rclass_plain (rr_class r) /\
  match rr_class r with UdpPayloadSize n => n < 32768 | _ => True end /\ (mdns c = false -> rr_flush r = false) /\
  rdata_typed c (rr_data r) /\ understood c (rr_data r).
(** A record that can be laid out: a legal owner, a class below 32768 (the top bit is a flag for mDNS), a TTL of 32 bits, data with a layout. *)
Definition record_fields_ok (c : cfg) (r : rr) : Prop :=
  rdata_typed c (rr_data r) /\ legal_name (rr_name r) /\ match rr_class r with UdpPayloadSize n => n < 32768 | _ => True end /\
  rr_ttl r < 4294967296 /\ layout_ok (rr_data r).
