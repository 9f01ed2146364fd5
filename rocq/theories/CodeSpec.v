(** * What it means for an enumeration to be faithfully numbered; the IANA numbers.

    Specification only: nothing here is derived from the code under study. *)
From Verif Require Import Base Types Header RDataBasic Bitmap Svcb RDataSec.

(** [code] writes a value, [dec] reads a number.  [dom] are the values that the enumeration
    documents (all of them unless it has a numeric payload with a documented range). *)
Definition faithful {X : Type} (dom : X -> Prop) (bound : N) (code : X -> N) (dec : N -> res X)
    (error : N -> dns_error) : Prop :=
  (forall x, dom x -> code x < bound /\ dec (code x) = Ok x) /\
  (forall n x, dec n = Ok x -> dom x /\ code x = n) /\
  (forall n, (forall x, dom x -> code x <> n) -> dec n = Err (error n)) /\
  (forall x y, dom x -> dom y -> code x = code y -> x = y).

Definition any {X : Type} (_ : X) : Prop := True.

(** IANA "Domain Name System (DNS) Parameters", resource record types. *)
Definition iana_types : list (rtype * N) :=
  [(A, 1); (NS, 2); (CNAME, 5); (SOA, 6); (NULL, 10); (WKS, 11); (PTR, 12); (HINFO, 13); (MINFO, 14);
   (MX, 15); (TXT, 16); (AAAA, 28); (LOC, 29); (SRV, 33); (NAPTR, 35); (OPT, 41); (APL, 42); (DS, 43);
   (SSHFP, 44); (IPSECKEY, 45); (RRSIG, 46); (NSEC, 47); (DNSKEY, 48); (DHCID, 49); (TLSA, 52);
   (HIP, 55); (CDS, 59); (CDNSKEY, 60); (OPENPGPKEY, 61); (CSYNC, 62); (SVCB, 64); (EUI48, 108);
   (EUI64, 109); (TKEY, 249); (TSIG, 250); (URI, 256); (CAA, 257)].
(** The query-only types. *)
Definition iana_qtypes : list (qtype * N) :=
  map (fun p => (QT (fst p), snd p)) iana_types
  ++ [(AXFR, 252); (MAILB, 253); (MAILA, 254); (QT_ANY, 255)].
(** IANA classes. *)
Definition iana_qclasses : list (qclass * N) :=
  [(QIN, 1); (QCS, 2); (QCH, 3); (QHS, 4); (QNONE, 254); (QANY, 255)].

(** Values whose numeric payload is in the documented range: TKEY modes 6..65534 are "available"
    (RFC 2930 2.5), TKEY errors 1..15 are extended response codes (2.6), SVCB keys 65280..65534 are
    private (RFC 9460 14.3.2). *)
Definition tkmode_documented (m : tkmode) : Prop := match m with TmAvailable n => 6 <= n <= 65534 | _ => True end.
Definition tkerr_documented (e : tkerr) : Prop := match e with TeRcode n => 1 <= n <= 15 | _ => True end.
Definition pkey_documented (k : pkey) : Prop := match k with KPrivate n => 65280 <= n <= 65534 | _ => True end.

(** The types that exist in a build, except CDS and CDNSKEY. *)
Definition decodable (c : cfg) (t : rtype) : Prop := rtype_exists c t = true /\ t <> CDS /\ t <> CDNSKEY.
Definition qdecodable (c : cfg) (q : qtype) : Prop := match q with QT t => decodable c t | _ => True end.

(** A record class that is not the alias of another one and does not use the mDNS bit. *)
Definition rclass_plain (k : rclass) : Prop :=
  match k with UdpPayloadSize n => n < 32768 /\ ~ (1 <= n <= 4) | _ => True end.

(** CSYNC flags with the two bits RFC 7477 2.1.1.2 defines: immediate = 1, soaminimum = 2. *)
Definition csync_of (imm soa : bool) : csync_flags := (if imm then 1 else 0) + (if soa then 2 else 0).

(** Registered numbers of the other enumerations. *)
(** TLSA (RFC 6698 7.2-7.4), TSIG errors (RFC 8945 3), TKEY modes and errors (RFC 2930 2.5, 2.6), DHCID
    identifier types (RFC 4701 3.3), SVCB keys (RFC 9460 14.3.2), NAPTR flags (RFC 3404 4.4, ASCII). *)
Definition iana_cert_usage := [(CuCa, 0); (CuService, 1); (CuTrustAnchor, 2); (CuDomainIssued, 3)].
Definition iana_selector := [(SelFull, 0); (SelSpki, 1)].
Definition iana_matching := [(MtExact, 0); (MtSHA256, 1); (MtSHA512, 2)].
Definition iana_tserr := [(TsNone, 0); (TsBadSig, 16); (TsBadKey, 17); (TsBadTime, 18); (TsBadTrunc, 22)].
Definition iana_tkmode := [(TmServer, 1); (TmDH, 2); (TmGss, 3); (TmResolver, 4); (TmDelete, 5)].
Definition iana_tkerr := [(TeNone, 0); (TeBadSig, 16); (TeBadKey, 17); (TeBadTime, 18); (TeBadMode, 19);
                          (TeBadName, 20); (TeBadAlg, 21)].
Definition iana_idtype := [(Chaddr, 0); (ClientId, 1); (DUID, 2)].
Definition iana_pkey := [(KMandatory, 0); (KAlpn, 1); (KNoDefaultAlpn, 2); (KPort, 3); (KIpV4Hint, 4);
                         (KEch, 5); (KIpV6Hint, 6); (KInvalid, 65535)].
Definition iana_nflag := [(FlS, 83); (FlA, 65); (FlU, 85); (FlP, 80)].
(** DNSSEC algorithms (RFC 4034 A.1, 5702, 6605, 8080); Rust name RSA_MD5 is RSAMD5 and so on. *)
Definition iana_salg := [(RSA_MD5, 1); (DSA_SHA1, 3); (RSA_SHA1, 5); (RSA_SHA256, 8); (RSA_SHA512, 10);
  (ECDSA_P256, 13); (ECDSA_P384, 14); (ED25519, 15); (ED448, 16); (Indirect, 252); (PrivateDns, 253);
  (PrivateOid, 254)].
(** DS digest types: SHA-1, SHA-256, SHA-384.  SHA-512 has no number; 5 is GOST R 34.11-2012. *)
Definition iana_digest_type := [(DtSHA1, 1); (DtSHA256, 2); (DtSHA384, 4)].
(** SSHFP fingerprint types; SSHFP public key algorithms (RFC 4255, 6594, 7479, 8709). *)
Definition iana_fptype := [(FpReserved, 0); (FpSHA1, 1)].
Definition iana_sshfp_alg := [(AlgReserved, 0); (AlgRSA, 1); (AlgDSA, 2); (AlgECDSA, 3); (AlgEd25519, 4);
                              (AlgEd448, 6)].
(** IPSECKEY algorithms (RFC 4025 2.4; also used by HIP, RFC 8005 5): none, DSA, RSA, ECDSA. *)
Definition iana_ipseckey_alg := [(AlgReserved, 0); (AlgDSA, 1); (AlgRSA, 2); (AlgECDSA, 3)].
(** Response codes 0..10 and opcodes 0..2 (RFC 1035 4.1.1, RFC 2136 2.2). *)
Definition iana_rcode := [(NoError, 0); (FormatError, 1); (ServerFailure, 2); (NameError, 3);
  (NotImplemented, 4); (Refused, 5); (YXDomain, 6); (YXRRSet, 7); (NXRRSet, 8); (NotAuth, 9); (NotZone, 10)].
Definition iana_opcode := [(StandardQuery, 0); (InverseQuery, 1); (ServerStatusRequest, 2)].
