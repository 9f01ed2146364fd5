(** * Specification: one crate, several builds. *)
From Verif Require Import Base Header Types RDataBasic Bitmap Svcb RDataSec RData Packet.

(** The same features with and without overflow checks (cargo's dev and release profiles). *)
Definition debug (c : cfg) : cfg := mkcfg (mdns c) (dnssec c) true.
Definition release (c : cfg) : cfg := mkcfg (mdns c) (dnssec c) false.
(** The same build without and with a feature. *)
Definition without_dnssec (c : cfg) : cfg := mkcfg (mdns c) false (ovf c).
Definition with_dnssec (c : cfg) : cfg := mkcfg (mdns c) true (ovf c).
Definition without_mdns (c : cfg) : cfg := mkcfg false (dnssec c) (ovf c).
Definition with_mdns (c : cfg) : cfg := mkcfg true (dnssec c) (ovf c).

(** A debug build does what a release build does, unless it panics. *)
Definition same_unless_panic {X} (dbg rel : res X) : Prop := dbg = rel \/ dbg = Panic.
(** A build without DNSSEC does what a build with it does, unless it meets the number of one of its types. *)
Definition same_unless_dnssec {X} (without with_ : res X) : Prop :=
  without = with_ \/ exists n, In n [43; 46; 47; 48] /\ without = Err (InvalidType n).

(** The same values without what only mDNS knows about. *)
Definition plain_question (q : question) : question := mkQ (q_name q) (q_type q) (q_class q) false.
Definition plain_record (r : rr) : rr := mkRR (rr_name r) (rr_type r) false (rr_class r) (rr_ttl r) (rr_data r).
Definition plain_packet (p : packet) : packet :=
  mkPacket (p_header p) (map plain_question (p_questions p)) (map plain_record (p_answers p))
           (map plain_record (p_authorities p)) (map plain_record (p_additionals p)).
Definition on_ok {X Y} (f : X -> Y) (r : res X) : res Y :=
  match r with Ok x => Ok (f x) | Err e => Err e | Panic => Panic | Diverge => Diverge end.

(** The types a packet speaks of: in questions, as types of records, and inside record data. *)
Definition types_in_data (x : rdata) : list rtype :=
  match x with
  | DRRSIG x => [rs_type x]
  | DNSEC x => ns_types x
  | DCSYNC x => cs_types x
  | _ => []
  end.
Definition types_in (p : packet) : list rtype :=
  flat_map (fun q => match q_type q with QT t => [t] | _ => [] end) (p_questions p)
  ++ flat_map (fun r => rr_type r :: types_in_data (rr_data r)) (p_answers p ++ p_authorities p ++ p_additionals p).
(** The numbers of the DNSSEC types (RFC 4034, RFC 7344). *)
Definition dnssec_numbers : list N := [43; 46; 47; 48; 59; 60].
