(** * Models of rdata/dnssec.rs: DS creation, signing, verification; resource_record_set.rs:50-52.

    Hash functions and signature primitives come from other crates (ring, rsa, dsa, crrl, md5, sha1).
    They are arguments of the model, collected in the record [prims]; nothing is assumed about them
    here. *)
From Verif Require Import Base Buffer Fqdn Types RDataSec RData Packet.

(** The results of the primitives, as the code distinguishes them.  [seed] stands for the octets the
    operating system's random generator hands out. *)
Inductive rsa_signed := RsaBadKey | RsaSignFailed | RsaSigned (sig : bytes).
Inductive rsa_hash := RsaSha256 | RsaSha512.
Inductive curve := P256 | P384.
Record prims := mkPrims {
  md5 : bytes -> bytes; sha1 : bytes -> bytes; sha256 : bytes -> bytes; sha384 : bytes -> bytes; sha512 : bytes -> bytes;
  (** rsa::RsaPrivateKey::from_pkcs8_der + sign(Pkcs1v15Sign::new_unprefixed(), digest) *)
  rsa_sign : forall (pkcs8 digest : bytes), option bytes;
  (** ring::rsa::KeyPair::from_pkcs8 + sign(&RSA_PKCS1_SHA256 / 512, rng, data) *)
  ring_rsa_sign : rsa_hash -> forall (seed pkcs8 data : bytes), rsa_signed;
  (** dsa::SigningKey::from_pkcs8_der + sign_digest: r and s *)
  dsa_sign : forall (pkcs8 digest : bytes), option (N * N);
  (** ring EcdsaKeyPair / Ed25519KeyPair, crrl ed448 *)
  ecdsa_sign : curve -> forall (seed pkcs8 data : bytes), option bytes;
  ed25519_sign : forall (pkcs8 data : bytes), option bytes;
  ed448_sign : forall (key data : bytes), option bytes;
  (** rsa::RsaPublicKey::new(modulus, exponent) + verify(new_unprefixed(), hashed, sig) *)
  rsa_verify : forall (modulus exponent : N) (hashed sig : bytes), option bool;
  (** dsa::VerifyingKey::from_components + Signature::try_from + verify *)
  dsa_verify : forall (p q g y : N) (msg sig : bytes), option bool;
  ecdsa_verify : curve -> forall (key msg sig : bytes), bool;
  ed25519_verify : forall (key msg sig : bytes), bool;
  ed448_verify : forall (key sig msg : bytes), option bool }.

(** dnssec.rs:945-957, [DigestType::hash_data]. *)
Definition hash_data (x : prims) (d : digest_type) (data : bytes) : bytes :=
  match d with DtSHA1 => sha1 x data | DtSHA256 => sha256 x data | DtSHA384 => sha384 x data | DtSHA512 => sha512 x data end.

(** dnssec.rs:352-367, [Ds::try_from_dnskey]. *)
Definition ds_from_dnskey (c : cfg) (x : prims) (owner : fqdn) (k : dnskey) (d : digest_type) : res ds :=
  let! tag := compute_key_tag c k in
  Ok (mkDs tag (dk_alg k) d (hash_data x d (fqdn_to_bytes owner ++ dnskey_to_bytes k))).

(** dnssec.rs:370-378, [Ds::hex_digest]: [write!("{byte:02X}")], as the octets of the String. *)
Definition hex_digit (n : N) : N := if n <? 10 then 48 + n else 55 + n.
Definition hex_digest (x : ds) : bytes := flat_map (fun b => [hex_digit (b / 16); hex_digit (b mod 16)]) (ds_digest x).

(** num_bigint [BigUint::to_bytes_be]: as few octets as possible, at least one. *)
Definition min_be (n : N) : bytes := be (S (N.to_nat (N.log2 n / 8))) n.

(** The declaration order of [Algorithm], dnssec.rs:730-748: what [*self as u8] (888-890) yields. *)
Definition salg_index (a : salg) : N :=
  match a with
  | RSA_MD5 => 0 | DSA_SHA1 => 1 | RSA_SHA1 => 2 | RSA_SHA256 => 3 | RSA_SHA512 => 4 | ECDSA_P256 => 5 | ECDSA_P384 => 6
  | ED25519 => 7 | ED448 => 8 | Indirect => 9 | PrivateDns => 10 | PrivateOid => 11
  end.

(** dnssec.rs:761-892, [Algorithm::sign_data].  833 and 848: [map_err(|_| todo!())] panics. *)
Definition sign_data (x : prims) (seed : bytes) (a : salg) (data key : bytes) : res bytes :=
  match a with
  | RSA_MD5 => ok_or (rsa_sign x key (md5 x data)) DnsSecSigningError
  | DSA_SHA1 => let! rs := ok_or (dsa_sign x key (sha1 x data)) DnsSecSigningError in Ok (min_be (fst rs) ++ min_be (snd rs))
  | RSA_SHA1 => ok_or (rsa_sign x key (sha1 x data)) DnsSecSigningError
  | RSA_SHA256 =>
    match ring_rsa_sign x RsaSha256 seed key data with
    | RsaBadKey => Err DnsSecSigningError | RsaSignFailed => Panic | RsaSigned s => Ok s
    end
  | RSA_SHA512 =>
    match ring_rsa_sign x RsaSha512 seed key data with
    | RsaBadKey => Err DnsSecSigningError | RsaSignFailed => Panic | RsaSigned s => Ok s
    end
  | ECDSA_P256 => ok_or (ecdsa_sign x P256 seed key data) DnsSecSigningError
  | ECDSA_P384 => ok_or (ecdsa_sign x P384 seed key data) DnsSecSigningError
  | ED25519 => ok_or (ed25519_sign x key data) DnsSecSigningError
  | ED448 => ok_or (ed448_sign x key data) DnsSecSigningError
  | Indirect | PrivateDns | PrivateOid => Err (InvalidDnsSecAlgorithm (salg_index a))
  end.

(** dnssec.rs:665-676, [calculate_signature]: [to_bytes] includes the signature field, which is empty
    at the only call (491). *)
Definition calculate_signature (c : cfg) (x : prims) (bs : bsearch) (seed : bytes) (r : rrsig) (s : rrset) (key : bytes) : res rrsig :=
  let! set := rrset_to_bytes c bs s in
  let! sig := sign_data x seed (rs_alg r) (rrsig_to_bytes r ++ set) key in
  Ok (mkRrsig (rs_type r) (rs_alg r) (rs_labels r) (rs_ttl r) (rs_exp r) (rs_inc r) (rs_tag r) (rs_signer r) sig).

(** A [SystemTime]: nanoseconds since the epoch, negative before it.
    dnssec.rs:471-478: [duration_since(UNIX_EPOCH)?.as_millis() as u32]. *)
Definition time := Z.
Definition time_field (t : time) : res N :=
  if (t <? 0)%Z then Err InvalidDnsSecSignatureTimespan else Ok (u32 (Z.to_N (t / 1000000))).

(** dnssec.rs:464-495, [Rrsig::from_dnskey]. *)
Definition rrsig_from_dnskey (c : cfg) (x : prims) (bs : bsearch) (seed : bytes) (k : dnskey) (s : rrset) (inception expiration : time)
  (key : bytes) : res rrsig :=
  let! e := time_field expiration in
  let! i := time_field inception in
  let! tag := compute_key_tag c k in
  calculate_signature c x bs seed
    (mkRrsig (set_type s) (dk_alg k) (fqdn_label_count (set_name s)) (set_ttl s) e i tag (set_name s) []) s key.

(** dnssec.rs:522-532: everything but the signature, then the set. *)
Definition verify_input (c : cfg) (bs : bsearch) (r : rrsig) (s : rrset) : res bytes :=
  let! set := rrset_to_bytes c bs s in
  Ok (be 2 (rtype_code (rs_type r)) ++ [salg_code (rs_alg r)] ++ [rs_labels r] ++ be 4 (rs_ttl r)
      ++ be 4 (rs_exp r) ++ be 4 (rs_inc r) ++ be 2 (rs_tag r) ++ fqdn_to_bytes (rs_signer r) ++ set).

(** dnssec.rs:535-557. *)
Definition verify_hash (x : prims) (a : salg) (m : bytes) : bytes :=
  match a with
  | RSA_MD5 => md5 x m
  | RSA_SHA1 | DSA_SHA1 => sha1 x m
  | RSA_SHA256 => sha256 x m
  | RSA_SHA512 => sha512 x m
  | _ => m
  end.

(** dnssec.rs:570-582: exponent and modulus of an RSA key. *)
Definition rsa_key_parts : P (N * N) :=
  first <- extract_u8 ;;
  len <- (if first =? 0 then extract_u16 else ret first) ;;
  e <- extract_bytes (N.to_nat len) ;;
  n <- extract_rest ;;
  ret (unbe e, unbe n).
(** dnssec.rs:604-608: T, then Q, P, G, Y. *)
Definition dsa_key_parts : P (N * N * N * N) :=
  t <- extract_u8 ;;
  q <- extract_bytes 20 ;;
  p <- extract_bytes (64 + N.to_nat t * 8) ;;
  g <- extract_bytes (64 + N.to_nat t * 8) ;;
  y <- extract_bytes (64 + N.to_nat t * 8) ;;
  ret (unbe p, unbe q, unbe g, unbe y).

(** dnssec.rs:559-662. *)
Definition verify_with (x : prims) (a : salg) (pk m sig : bytes) : res bool :=
  match a with
  | RSA_MD5 | RSA_SHA1 | RSA_SHA256 | RSA_SHA512 =>
    let! en := fst (rsa_key_parts (buf_from pk)) in
    ok_or (rsa_verify x (snd en) (fst en) m sig) DnsSecVerificationError
  | DSA_SHA1 =>
    let! k := fst (dsa_key_parts (buf_from pk)) in
    let '(p, q, g, y) := k in
    ok_or (dsa_verify x p q g y m sig) DnsSecVerificationError
  | ECDSA_P256 => let! k := fst (extract_rest (buf_from pk)) in Ok (ecdsa_verify x P256 k m sig)
  | ECDSA_P384 => let! k := fst (extract_rest (buf_from pk)) in Ok (ecdsa_verify x P384 k m sig)
  | ED25519 => let! k := fst (extract_rest (buf_from pk)) in Ok (ed25519_verify x k m sig)
  | ED448 =>
    let! k := fst (extract_rest (buf_from pk)) in
    ok_or (ed448_verify x k sig m) DnsSecVerificationError
  | Indirect | PrivateDns | PrivateOid => Ok false
  end.

(** [PartialEq for Algorithm], derived. *)
Definition salg_eqb (a b : salg) : bool := salg_index a =? salg_index b.
(** dnssec.rs:511-663, [Rrsig::verify]. *)
Definition rrsig_verify (c : cfg) (x : prims) (bs : bsearch) (r : rrsig) (k : dnskey) (s : rrset) : res bool :=
  if negb (salg_eqb (rs_alg r) (dk_alg k)) then Err DnsSecVerificationError
  else
    let! m := verify_input c bs r s in
    verify_with x (rs_alg r) (dk_pk k) (verify_hash x (rs_alg r) m) (rs_sig r).

(** resource_record_set.rs:50-52, [canonical_reorder]: [sort_by_key] is stable and, with fewer than two
    records, calls the key function (which may panic) not at all. *)
Definition leb_bytes (a b : bytes) : bool := match bytes_cmp a b with Gt => false | _ => true end.
Fixpoint sort_insert (p : bytes * rdata) (l : list (bytes * rdata)) : list (bytes * rdata) :=
  match l with
  | [] => [p]
  | q :: l' => if leb_bytes (fst p) (fst q) then p :: q :: l' else q :: sort_insert p l'
  end.
Fixpoint with_keys (c : cfg) (ds : list rdata) : res (list (bytes * rdata)) :=
  match ds with
  | [] => Ok []
  | d :: ds' => let! b := rdata_to_bytes c d in let! r := with_keys c ds' in Ok ((b, d) :: r)
  end.
Definition canonical_reorder (c : cfg) (s : rrset) : res rrset :=
  if (length (set_records s) <? 2)%nat then Ok s
  else
    let! l := with_keys c (set_records s) in
    Ok (mkRRset (set_name s) (set_type s) (set_class s) (set_ttl s) (map snd (fold_right sort_insert [] l))).
