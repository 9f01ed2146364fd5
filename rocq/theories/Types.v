(** * Type and class numberings: resource.rs:13-258, question.rs:13-244. *)
From Verif Require Import Base.

(** resource.rs:65-109, [RecordType].  The variants marked D exist only with feature [dnssec]. *)
Inductive rtype : Set :=
| A | NS | CNAME | SOA | NULL | WKS | PTR | HINFO | MINFO | MX | TXT | AAAA | LOC | SRV | NAPTR
| OPT | APL | DS (* D *) | SSHFP | IPSECKEY | RRSIG (* D *) | NSEC (* D *) | DNSKEY (* D *)
| DHCID | TLSA | HIP | CDS (* D *) | CDNSKEY (* D *) | OPENPGPKEY | CSYNC | SVCB | EUI48 | EUI64
| TKEY | TSIG | URI | CAA.

(** Variants compiled only with feature [dnssec] (resource.rs:83-101). *)
Definition dnssec_only (t : rtype) : bool :=
  match t with DS | RRSIG | NSEC | DNSKEY | CDS | CDNSKEY => true | _ => false end.

(** The type exists in the given build. *)
Definition rtype_exists (c : cfg) (t : rtype) : bool := dnssec c || negb (dnssec_only t).

(** resource.rs:212-257, [From<RecordType> for u16]; also the discriminants used by [as u16]. *)
Definition rtype_code (t : rtype) : N :=
  match t with
  | A => 1 | NS => 2 | CNAME => 5 | SOA => 6 | NULL => 10 | WKS => 11 | PTR => 12 | HINFO => 13
  | MINFO => 14 | MX => 15 | TXT => 16 | AAAA => 28 | LOC => 29 | SRV => 33 | NAPTR => 35
  | OPT => 41 | APL => 42 | DS => 43 | SSHFP => 44 | IPSECKEY => 45 | RRSIG => 46 | NSEC => 47
  | DNSKEY => 48 | DHCID => 49 | TLSA => 52 | HIP => 55 | CDS => 59 | CDNSKEY => 60
  | OPENPGPKEY => 61 | CSYNC => 62 | SVCB => 64 | EUI48 => 108 | EUI64 => 109 | TKEY => 249
  | TSIG => 250 | URI => 256 | CAA => 257
  end.

(** resource.rs:160-210, [TryFrom<u16> for RecordType].  There is no arm for 59 and 60. *)
Definition rtype_table (c : cfg) : list (N * rtype) :=
  [(1, A); (2, NS); (5, CNAME); (6, SOA); (10, NULL); (11, WKS); (12, PTR); (13, HINFO);
   (14, MINFO); (15, MX); (16, TXT); (28, AAAA); (29, LOC); (33, SRV); (35, NAPTR); (41, OPT);
   (42, APL)]
  ++ (if dnssec c then [(43, DS)] else [])
  ++ [(44, SSHFP); (45, IPSECKEY)]
  ++ (if dnssec c then [(46, RRSIG); (47, NSEC); (48, DNSKEY)] else [])
  ++ [(49, DHCID); (52, TLSA); (55, HIP); (61, OPENPGPKEY); (62, CSYNC); (64, SVCB); (108, EUI48);
      (109, EUI64); (249, TKEY); (250, TSIG); (256, URI); (257, CAA)].
Definition rtype_try_from (c : cfg) (n : N) : res rtype :=
  ok_or (assoc n (rtype_table c)) (InvalidType n).

(** resource.rs:112-158, [RecordType::compression_allowed]. *)
Definition compression_allowed (t : rtype) : bool :=
  match t with
  | NS | CNAME | SOA | PTR | MINFO | MX | TXT | SRV | NAPTR | NSEC => true
  | _ => false
  end.

(** question.rs:74-125, [QType]: the record types plus four query-only types. *)
Inductive qtype : Set := QT (t : rtype) | AXFR | MAILB | MAILA | QT_ANY.

(** question.rs:180-234, [From<QType> for u16] and the discriminants. *)
Definition qtype_code (q : qtype) : N :=
  match q with QT t => rtype_code t | AXFR => 252 | MAILB => 253 | MAILA => 254 | QT_ANY => 255 end.

(** question.rs:127-178, [TryFrom<u16> for QType]: the same arms as for [RecordType] (also no 59,
    60) followed by the four query-only ones. *)
Definition qtype_table (c : cfg) : list (N * qtype) :=
  map (fun p => (fst p, QT (snd p))) (rtype_table c)
  ++ [(252, AXFR); (253, MAILB); (254, MAILA); (255, QT_ANY)].
Definition qtype_try_from (c : cfg) (n : N) : res qtype :=
  ok_or (assoc n (qtype_table c)) (InvalidType n).

(** question.rs:13-28, [QClass]. *)
Inductive qclass : Set := QIN | QCS | QCH | QHS | QNONE | QANY.
(** question.rs:47-58. *)
Definition qclass_code (q : qclass) : N :=
  match q with QIN => 1 | QCS => 2 | QCH => 3 | QHS => 4 | QNONE => 254 | QANY => 255 end.
(** question.rs:30-45: bit 15 is masked off first; the error carries the masked number. *)
Definition qclass_try_from (n : N) : res qclass :=
  let n := N.land n 32767 in
  ok_or (assoc n [(1, QIN); (2, QCS); (3, QCH); (4, QHS); (254, QNONE); (255, QANY)])
        (InvalidClass n).

(** resource.rs:13-24, [RecordClass]. *)
Inductive rclass : Set := CIN | CCS | CCH | CHS | UdpPayloadSize (n : N).
(** resource.rs:39-49. *)
Definition rclass_code (r : rclass) : N :=
  match r with CIN => 1 | CCS => 2 | CCH => 3 | CHS => 4 | UdpPayloadSize n => n end.
(** resource.rs:26-37. *)
Definition rclass_from (n : N) : rclass :=
  let n := N.land n 32767 in
  match assoc n [(1, CIN); (2, CCS); (3, CCH); (4, CHS)] with
  | Some r => r
  | None => UdpPayloadSize n
  end.
