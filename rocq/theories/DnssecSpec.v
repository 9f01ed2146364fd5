(** * Specification: canonical record sets, signatures, key tags, times.

    Sources: RFC 4034 sections 2.1, 3.1.8.1, 5.1.4, 6.3 and appendix B; RFC 3110 and RFC 2536 for the
    keys.  Apart from the types, only [to_bytes] of names and of record data is taken from the model. *)
From Coq Require Import Sorting.Permutation Sorting.Sorted.
From Verif Require Import Base Buffer Fqdn Types RDataSec RData Packet Dnssec.

(** ** Order of octet strings: by the first octet that differs, or the shorter one first *)
Inductive octets_lt : bytes -> bytes -> Prop :=
| prefix_of a y b : octets_lt a (a ++ y :: b)
| first_difference p x y a b : x < y -> octets_lt (p ++ x :: a) (p ++ y :: b).
Definition octets_le (a b : bytes) : Prop := a = b \/ octets_lt a b.
Definition in_order (l : list bytes) : Prop := StronglySorted octets_le l.

(** What the documentation of [slice::binary_search] promises on a sorted slice: the index of a match,
    or the place where the missing element belongs. *)
Definition search_contract (bs : bsearch) : Prop := forall l x, in_order l ->
  match bs l x with
  | inl i => nth_error l i = Some x
  | inr i => (i <= length l)%nat /\ Forall (fun y => octets_lt y x) (firstn i l) /\ Forall (octets_lt x) (skipn i l)
  end.

(** ** The canonical form of a record set *)

(** [ds] are the encodings of the records of [s], each as often as it occurs, in order. *)
Definition canonical_data (c : cfg) (s : rrset) (ds : list bytes) : Prop :=
  exists written, Forall2 (fun d b => rdata_to_bytes c d = Ok b) (set_records s) written /\
    Permutation ds written /\ in_order ds.
(** One record in full: owner, type, class, TTL, RDLENGTH, RDATA. *)
Definition full_record (s : rrset) (b : bytes) : bytes :=
  fqdn_to_bytes (set_name s) ++ be 2 (rtype_code (set_type s)) ++ be 2 (rclass_code (set_class s)) ++ be 4 (set_ttl s)
  ++ be 2 (N.of_nat (length b)) ++ b.
(** The same set with other records. *)
Definition with_records (s : rrset) (ds : list rdata) : rrset := mkRRset (set_name s) (set_type s) (set_class s) (set_ttl s) ds.

(** ** What is signed (RFC 4034, 3.1.8.1): the RRSIG data without the signature, then the records *)
Definition signed_octets (r : rrsig) (s : rrset) (ds : list bytes) : bytes :=
  be 2 (rtype_code (rs_type r)) ++ [salg_code (rs_alg r); rs_labels r] ++ be 4 (rs_ttl r) ++ be 4 (rs_exp r) ++ be 4 (rs_inc r)
  ++ be 2 (rs_tag r) ++ fqdn_to_bytes (rs_signer r) ++ flat_map (full_record s) ds.

(** ** Public keys *)

(** RFC 3110: exponent length in one octet, or zero and two octets; exponent; modulus. *)
Definition rsa_public (pk : bytes) (e n : N) : Prop :=
  exists eb nb, e = unbe eb /\ n = unbe nb /\
    ((1 <= length eb <= 255)%nat /\ pk = N.of_nat (length eb) :: eb ++ nb \/
     N.of_nat (length eb) <= 65535 /\ pk = 0 :: be 2 (N.of_nat (length eb)) ++ eb ++ nb).
(** RFC 2536: T, then Q of 20 octets, then P, G and Y of 64 + 8 T octets each. *)
Definition dsa_public (pk : bytes) (p q g y : N) : Prop :=
  exists t qb pb gb yb rest, p = unbe pb /\ q = unbe qb /\ g = unbe gb /\ y = unbe yb /\ (t <= 255)%nat /\ length qb = 20%nat /\
    length pb = (64 + 8 * t)%nat /\ length gb = (64 + 8 * t)%nat /\ length yb = (64 + 8 * t)%nat /\
    pk = N.of_nat t :: qb ++ pb ++ gb ++ yb ++ rest.

(** ** When a signature is accepted: what each algorithm asks of the primitives

    [m] is the signed octet string itself. *)
Inductive accepts (x : prims) (pk m sig : bytes) : salg -> Prop :=
| ok_rsa_md5 e n : rsa_public pk e n -> rsa_verify x n e (md5 x m) sig = Some true -> accepts x pk m sig RSA_MD5
| ok_rsa_sha1 e n : rsa_public pk e n -> rsa_verify x n e (sha1 x m) sig = Some true -> accepts x pk m sig RSA_SHA1
| ok_rsa_sha256 e n : rsa_public pk e n -> rsa_verify x n e (sha256 x m) sig = Some true -> accepts x pk m sig RSA_SHA256
| ok_rsa_sha512 e n : rsa_public pk e n -> rsa_verify x n e (sha512 x m) sig = Some true -> accepts x pk m sig RSA_SHA512
| ok_dsa p q g y : dsa_public pk p q g y -> dsa_verify x p q g y (sha1 x m) sig = Some true -> accepts x pk m sig DSA_SHA1
| ok_p256 : ecdsa_verify x P256 pk m sig = true -> accepts x pk m sig ECDSA_P256
| ok_p384 : ecdsa_verify x P384 pk m sig = true -> accepts x pk m sig ECDSA_P384
| ok_ed25519 : ed25519_verify x pk m sig = true -> accepts x pk m sig ED25519
| ok_ed448 : ed448_verify x pk sig m = Some true -> accepts x pk m sig ED448.

(** ** Key pairs for which the primitives are correct: what is signed with [key] verifies with [pk] *)
Inductive key_pair (x : prims) (key pk : bytes) : salg -> Prop :=
| pair_rsa a e n : In a [RSA_MD5; RSA_SHA1] -> rsa_public pk e n ->
    (forall digest sig, rsa_sign x key digest = Some sig -> rsa_verify x n e digest sig = Some true) -> key_pair x key pk a
| pair_p256 : (forall seed m sig, ecdsa_sign x P256 seed key m = Some sig -> ecdsa_verify x P256 pk m sig = true) ->
    key_pair x key pk ECDSA_P256
| pair_p384 : (forall seed m sig, ecdsa_sign x P384 seed key m = Some sig -> ecdsa_verify x P384 pk m sig = true) ->
    key_pair x key pk ECDSA_P384
| pair_ed25519 : (forall m sig, ed25519_sign x key m = Some sig -> ed25519_verify x pk m sig = true) ->
    key_pair x key pk ED25519
| pair_ed448 : (forall m sig, ed448_sign x key m = Some sig -> ed448_verify x pk sig m = Some true) ->
    key_pair x key pk ED448.

(** ** PKCS#1 v1.5: what an RSA signature contains

    [opens sig]: the octets behind the padding, after applying the public key.  The crate rsa with
    [new_unprefixed] compares them to the digest; ring puts the DigestInfo header (RFC 8017, 9.2) in
    front of the digest. *)
Definition digest_info (h : rsa_hash) : bytes :=
  match h with
  | RsaSha256 => [48; 49; 48; 13; 6; 9; 96; 134; 72; 1; 101; 3; 4; 2; 1; 5; 0; 4; 32]
  | RsaSha512 => [48; 81; 48; 13; 6; 9; 96; 134; 72; 1; 101; 3; 4; 2; 3; 5; 0; 4; 64]
  end.
Definition digest_of (x : prims) (h : rsa_hash) : bytes -> bytes := match h with RsaSha256 => sha256 x | RsaSha512 => sha512 x end.
Definition compares_unprefixed (x : prims) (e n : N) (opens : bytes -> option bytes) : Prop :=
  forall digest sig, rsa_verify x n e digest sig = Some true -> opens sig = Some digest.
Definition signs_prefixed (x : prims) (h : rsa_hash) (key : bytes) (opens : bytes -> option bytes) : Prop :=
  forall seed m sig, ring_rsa_sign x h seed key m = RsaSigned sig -> opens sig = Some (digest_info h ++ digest_of x h m).

(** ** Key tags (RFC 4034, appendix B) *)

(** DNSKEY RDATA (2.1): flags (bit 7: zone key, bit 15: secure entry point), protocol, algorithm, key. *)
Definition dnskey_rdata (k : dnskey) : bytes :=
  [if dk_zone k then 1 else 0; if dk_sep k then 1 else 0; dk_protocol k; salg_code (dk_alg k)] ++ dk_pk k.
(** Octets at even places count 256 times. *)
Fixpoint weighted_sum (even : bool) (l : bytes) : N :=
  match l with [] => 0 | b :: l' => (if even then b * 256 else b) + weighted_sum (negb even) l' end.
Definition rfc_key_tag (rdata : bytes) : N :=
  let ac := weighted_sum true rdata in (ac + ac / 65536 mod 65536) mod 65536.
(** B.1, algorithm 1 (RSA/MD5): the most significant 16 of the least significant 24 bits of the modulus,
    that is, the third and second octet from the end. *)
Definition rfc_key_tag_md5 (pk : bytes) : N := unbe (firstn 2 (skipn (length pk - 3) pk)).

(** ** Times *)
Definition second : Z := 1000000000.
(** The field of an RRSIG for a time (3.1.5): seconds since 1 January 1970, in 32 bits. *)
Definition rfc_time (t : time) : N := Z.to_N (t / second) mod 4294967296.

(** ** Hexadecimal text *)
Definition hex_alphabet : bytes := [48; 49; 50; 51; 52; 53; 54; 55; 56; 57; 65; 66; 67; 68; 69; 70].
Inductive hex_denotes : bytes -> bytes -> Prop :=
| hex_end : hex_denotes [] []
| hex_more i j a b s d : nth_error hex_alphabet i = Some a -> nth_error hex_alphabet j = Some b -> hex_denotes s d ->
    hex_denotes (a :: b :: s) (16 * N.of_nat i + N.of_nat j :: d).

(** ** Fields of a signature (RFC 4034, 3.1.3) *)

(** The number of labels of the owner name, not counting a leading wildcard. *)
Definition rfc_labels (f : fqdn) : nat := match f with [42] :: f' => length f' | _ => length f end.

(** DER: a SEQUENCE starts with octet 48 (X.690, 8.9.1 and 8.14); DSA signatures are handed to the crate
    dsa in this form. *)
Definition wants_der (x : prims) : Prop := forall p q g y m sig b, dsa_verify x p q g y m sig = Some b -> exists rest, sig = 48 :: rest.
