(** * The sets a caller fills: [BTreeSet<RecordType>], [BTreeSet<ParamKey>], [BTreeSet<Param>], and the order of
    types and classes *)
From Verif Require Import Base Types.

(** resource.rs:65-109: the discriminants written beside the variants of [RecordType].  [r as u16]
    (dnssec.rs:96-140, csync.rs:130-175) gives them, and the derived [Ord] (resource.rs:64) compares them. *)
Definition rtype_disc (t : rtype) : N :=
  match t with
  | A => 1 | NS => 2 | CNAME => 5 | SOA => 6 | NULL => 10 | WKS => 11 | PTR => 12 | HINFO => 13
  | MINFO => 14 | MX => 15 | TXT => 16 | AAAA => 28 | LOC => 29 | SRV => 33 | NAPTR => 35
  | OPT => 41 | APL => 42 | DS => 43 | SSHFP => 44 | IPSECKEY => 45 | RRSIG => 46 | NSEC => 47
  | DNSKEY => 48 | DHCID => 49 | TLSA => 52 | HIP => 55 | CDS => 59 | CDNSKEY => 60
  | OPENPGPKEY => 61 | CSYNC => 62 | SVCB => 64 | EUI48 => 108 | EUI64 => 109 | TKEY => 249
  | TSIG => 250 | URI => 256 | CAA => 257
  end.
(** resource.rs:64, [derive(PartialOrd, Ord)] for [RecordType]. *)
Definition rtype_cmp (a b : rtype) : comparison := rtype_disc a ?= rtype_disc b.

(** resource.rs:12-24: [RecordClass] has no written discriminants, so they are the positions. *)
Definition rclass_disc (r : rclass) : N :=
  match r with CIN => 0 | CCS => 1 | CCH => 2 | CHS => 3 | UdpPayloadSize _ => 4 end.
(** resource.rs:12, [derive(PartialOrd, Ord)] for [RecordClass]: by variant, then by the fields. *)
Definition rclass_cmp (a b : rclass) : comparison :=
  match a, b with
  | UdpPayloadSize n, UdpPayloadSize m => n ?= m
  | _, _ => rclass_disc a ?= rclass_disc b
  end.

(** A set filled by calls of [BTreeSet::insert], as the parsers do (dnssec.rs:61-76, csync.rs:84-99,
    svcb.rs:55-61, 205-211): an element that compares equal to a present one is not inserted. *)
Definition inserted {X} (key : X -> N) (l : list X) : list X := fold_left (fun s x => set_insert key x s) l [].
(** A set made by [BTreeSet::from] or [collect], as the tests do (dnssec.rs:1003, svcb.rs:330): the standard
    library sorts the elements, stably, and of those that compare equal keeps the last. *)
Definition collected {X} (key : X -> N) (l : list X) : list X := fold_right (set_insert key) [] l.
