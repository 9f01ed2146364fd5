(** * RSA as RFC 8017 defines it, in the forms the crates rsa and ring compute

    External code, written down from RFC 8017 and the documentation of the crates (their sources are not in the sandbox), to put in
    place of the arguments of the model for dnssec.rs:570-592 (verifying), 776-787 and 812-820 (crate rsa) and 822-851 (ring). *)
From Verif Require Import Base Dnssec DnssecSpec.

(** Exponentiation modulo [n] by squaring. *)
Fixpoint mod_pow_pos (b : N) (e : positive) (n : N) : N :=
  match e with
  | xH => b mod n
  | xO e => let r := mod_pow_pos b e n in r * r mod n
  | xI e => let r := mod_pow_pos b e n in (r * r mod n) * b mod n
  end.
Definition mod_pow (b e n : N) : N := match e with N0 => 1 mod n | Npos e => mod_pow_pos b e n end.
(** The number of octets of the modulus. *)
Definition octet_size (n : N) : nat := S (N.to_nat (N.log2 n / 8)).
(** EMSA-PKCS1-v1_5 (9.2), steps 3 to 6, for [T = t]. *)
Definition encoded (k : nat) (t : bytes) : option bytes :=
  if (k <? length t + 11)%nat then None else Some ([0; 1] ++ repeat 255 (k - length t - 3) ++ [0] ++ t).
Definition octets_eqb (a b : bytes) : bool := if list_eq_dec N.eq_dec a b then true else false.

(** rsa::RsaPublicKey::new and verify with [Pkcs1v15Sign::new_unprefixed()]: [T] is the digest alone.  [takes n e]: the
    keys the crate accepts. *)
Definition crate_verify (takes : N -> N -> bool) (n e : N) (digest sig : bytes) : option bool :=
  if takes n e then
    Some ((length sig =? octet_size n)%nat && (unbe sig <? n) &&
          match encoded (octet_size n) digest with
          | Some em => octets_eqb (be (octet_size n) (mod_pow (unbe sig) e n)) em
          | None => false
          end)
  else None.
(** rsa::RsaPrivateKey::from_pkcs8_der ([decode]: modulus and private exponent) and sign with [new_unprefixed()]. *)
Definition crate_sign (decode : bytes -> option (N * N)) (key digest : bytes) : option bytes :=
  match decode key with
  | Some (n, d) => match encoded (octet_size n) digest with Some em => Some (be (octet_size n) (mod_pow (unbe em) d n)) | None => None end
  | None => None
  end.
(** ring::rsa::KeyPair::from_pkcs8 and sign with RSA_PKCS1_SHA256 or RSA_PKCS1_SHA512: [T] has the DigestInfo. *)
Definition ring_sign (decode : bytes -> option (N * N)) (hash : rsa_hash -> bytes -> bytes) (h : rsa_hash) (key m : bytes) : rsa_signed :=
  match decode key with
  | Some (n, d) =>
    match encoded (octet_size n) (digest_info h ++ hash h m) with
    | Some em => RsaSigned (be (octet_size n) (mod_pow (unbe em) d n))
    | None => RsaSignFailed
    end
  | None => RsaBadKey
  end.
(** The primitives [x] with this RSA. *)
Definition with_rsa (x : prims) (takes : N -> N -> bool) (decode ring_decode : bytes -> option (N * N)) : prims :=
  mkPrims (md5 x) (sha1 x) (sha256 x) (sha384 x) (sha512 x)
    (crate_sign decode) (fun h _ key m => ring_sign ring_decode (digest_of x) h key m) (dsa_sign x) (ecdsa_sign x) (ed25519_sign x) (ed448_sign x)
    (crate_verify takes) (dsa_verify x) (ecdsa_verify x) (ed25519_verify x) (ed448_verify x).
