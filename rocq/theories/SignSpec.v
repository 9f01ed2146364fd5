(** * Specification: what the RFCs let a signer sign and a validator check

    Sources: RFC 4034, 3.1.8.1 (signed data), 6.2 (canonical records), 6.3 (canonical sets); RFC 4035, 5.3.2
    (reconstruction of the signed data); RFC 6840, 5.1 (no lower case in NSEC); RFC 3110, 5702 (RSA), RFC 2536
    (DSA), RFC 6605 (ECDSA).  Apart from the types, only [to_bytes] of names and of record data is taken from
    the model. *)
From Coq Require Import Sorting.Sorted.
From Verif Require Import Base Buffer Fqdn Types RDataBasic RDataSec RData Packet Dnssec ObjectSpec DnssecSpec.

(** ** Canonical names and data: US-ASCII letters in lower case (6.2, items 2 and 3) *)
Definition lower_name (f : fqdn) : fqdn := map (map fold_case) f.
Definition lower_data (d : rdata) : rdata :=
  match d with
  | DNS f => DNS (lower_name f)
  | DCNAME f => DCNAME (lower_name f)
  | DPTR f => DPTR (lower_name f)
  | DSOA x => DSOA (mkSoa (lower_name (soa_mname x)) (lower_name (soa_rname x)) (soa_serial x) (soa_refresh x) (soa_retry x) (soa_expire x) (soa_minimum x))
  | DMINFO x => DMINFO (mkMinfo (lower_name (minfo_r x)) (lower_name (minfo_e x)))
  | DMX x => DMX (mkMx (mx_pref x) (lower_name (mx_exchange x)))
  | DNAPTR x => DNAPTR (mkNaptr (na_order x) (na_pref x) (na_flags x) (na_service x) (na_regexp x) (lower_name (na_repl x)))
  | DSRV x => DSRV (mkSrv (srv_prio x) (srv_weight x) (srv_port x) (lower_name (srv_target x)))
  | DRRSIG x => DRRSIG (mkRrsig (rs_type x) (rs_alg x) (rs_labels x) (rs_ttl x) (rs_exp x) (rs_inc x) (rs_tag x) (lower_name (rs_signer x)) (rs_sig x))
  | _ => d
  end.

(** The name that was signed (RFC 4035, 5.3.2): the owner, or the wildcard it was made from when the signature
    counts fewer labels. *)
Definition signed_name (owner : fqdn) (labels : N) (f : fqdn) : Prop :=
  labels = N.of_nat (length owner) /\ f = owner \/
  labels < N.of_nat (length owner) /\ f = [42] :: skipn (length owner - N.to_nat labels) owner.

(** The canonical set: every record once, sorted by the octets of its data (6.3). *)
Definition canonical_set (c : cfg) (s : rrset) (ds : list bytes) : Prop :=
  StronglySorted octets_lt ds /\ forall b, In b ds <-> exists d, In d (set_records s) /\ rdata_to_bytes c (lower_data d) = Ok b.

(** The signed data of a signature [r] for the set [s] (RFC 4034, 3.1.8.1): the fields of the signature, its signer in
    lower case, then the records, with the TTL that the signature says the set had. *)
Definition rfc_signed (c : cfg) (r : rrsig) (s : rrset) (out : bytes) : Prop :=
  exists f ds, signed_name (lower_name (set_name s)) (rs_labels r) f /\ canonical_set c s ds /\
    out = be 2 (rtype_code (rs_type r)) ++ [salg_code (rs_alg r); rs_labels r] ++ be 4 (rs_ttl r) ++ be 4 (rs_exp r) ++ be 4 (rs_inc r)
      ++ be 2 (rs_tag r) ++ fqdn_to_bytes (lower_name (rs_signer r))
      ++ flat_map (fun b => fqdn_to_bytes f ++ be 2 (rtype_code (set_type s)) ++ be 2 (rclass_code (set_class s)) ++ be 4 (rs_ttl r)
                            ++ be 2 (N.of_nat (length b)) ++ b) ds.

(** ** What signatures and keys look like *)

(** The DigestInfo in front of the digest in an RSA signature (RFC 2537, 3110, 5702; RFC 8017, 9.2). *)
Definition rsa_digest_info (a : salg) : bytes :=
  match a with
  | RSA_MD5 => [48; 32; 48; 12; 6; 8; 42; 134; 72; 134; 247; 13; 2; 5; 5; 0; 4; 16]
  | RSA_SHA1 => [48; 33; 48; 9; 6; 5; 43; 14; 3; 2; 26; 5; 0; 4; 20]
  | RSA_SHA256 => digest_info RsaSha256
  | RSA_SHA512 => digest_info RsaSha512
  | _ => []
  end.
Definition rsa_hash_of (x : prims) (a : salg) : bytes -> bytes :=
  match a with RSA_MD5 => md5 x | RSA_SHA1 => sha1 x | RSA_SHA256 => sha256 x | _ => sha512 x end.
(** Digests of one algorithm have one length. *)
Definition one_length (h : bytes -> bytes) : Prop := forall m m', length (h m) = length (h m').
(** ring reads the public keys of its ECDSA verifiers as uncompressed points (SEC 1, 2.3.4): the octet 4 and
    both coordinates. *)
Definition wants_point (x : prims) : Prop := forall cv pk m sig, ecdsa_verify x cv pk m sig = true ->
  exists xy, pk = 4 :: xy /\ length xy = match cv with P256 => 64 | P384 => 96 end%nat.
(** RFC 6605, 4: the key in a DNSKEY record is both coordinates without anything in front. *)
Definition rfc6605_key (cv : curve) (pk : bytes) : Prop := length pk = match cv with P256 => 64 | P384 => 96 end%nat.
(** RFC 2536, 3: T (at most 8), then R and S of 20 octets each. *)
Definition rfc2536_signature (sig : bytes) : Prop := exists t rs, sig = t :: rs /\ t <= 8 /\ length rs = 40%nat.
