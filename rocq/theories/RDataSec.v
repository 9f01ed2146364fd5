(** * Record types of rdata/dnssec.rs: NSEC, DNSKEY, DS, RRSIG (wire format only; signing and
    verification are in Dnssec.v). *)
From Verif Require Import Base Buffer Fqdn Types Bitmap.

(** dnssec.rs:730-748, 895-934, [Algorithm]. *)
Inductive salg : Set :=
| RSA_MD5 | DSA_SHA1 | RSA_SHA1 | RSA_SHA256 | RSA_SHA512 | ECDSA_P256 | ECDSA_P384 | ED25519
| ED448 | Indirect | PrivateDns | PrivateOid.
Definition salg_code (a : salg) : N :=
  match a with
  | RSA_MD5 => 1 | DSA_SHA1 => 3 | RSA_SHA1 => 5 | RSA_SHA256 => 8 | RSA_SHA512 => 10
  | ECDSA_P256 => 13 | ECDSA_P384 => 14 | ED25519 => 15 | ED448 => 16 | Indirect => 252
  | PrivateDns => 253 | PrivateOid => 254
  end.
Definition salg_try_from (n : N) : res salg :=
  ok_or (assoc n [(1, RSA_MD5); (3, DSA_SHA1); (5, RSA_SHA1); (8, RSA_SHA256); (10, RSA_SHA512);
                  (13, ECDSA_P256); (14, ECDSA_P384); (15, ED25519); (16, ED448); (252, Indirect);
                  (253, PrivateDns); (254, PrivateOid)])
        (InvalidDnsSecAlgorithm n).

(** dnssec.rs:751-759, [Algorithm::len]. *)
Definition salg_len (a : salg) : option nat :=
  match a with
  | RSA_MD5 => Some 16 | DSA_SHA1 | RSA_SHA1 => Some 20 | RSA_SHA256 | ED25519 => Some 32
  | RSA_SHA512 | ED448 => Some 64 | _ => None
  end%nat.

(** dnssec.rs:937-942, 960-983, [DigestType]. *)
Inductive digest_type : Set := DtSHA1 | DtSHA256 | DtSHA384 | DtSHA512.
Definition digest_type_code (d : digest_type) : N :=
  match d with DtSHA1 => 1 | DtSHA256 => 2 | DtSHA384 => 4 | DtSHA512 => 5 end.
Definition digest_type_try_from (n : N) : res digest_type :=
  ok_or (assoc n [(1, DtSHA1); (2, DtSHA256); (4, DtSHA384); (5, DtSHA512)]) (InvalidDigestType n).

(** dnssec.rs:22-25, 57-83, 88-110, 112-144, 148-170, 172-208. *)
Record nsec := mkNsec { ns_next : fqdn; ns_types : tset }.
Definition nsec_try_from (c : cfg) : P nsec :=
  f <- extract_fqdn ;; ts <- types_try_from c ;; ret (mkNsec f ts).
Definition nsec_byte_size (c : cfg) (x : nsec) : res nat :=
  let! n := types_byte_size c (ns_types x) in Ok (fqdn_byte_size (ns_next x) + n)%nat.
(** 113: [Vec::with_capacity(self.byte_size())] runs [byte_size] first. *)
Definition nsec_to_bytes (c : cfg) (x : nsec) : res bytes :=
  let! _ := nsec_byte_size c x in
  let! bs := types_to_bytes c (ns_types x) in
  Ok (fqdn_to_bytes (ns_next x) ++ bs).
Definition nsec_byte_size_compressed (c : cfg) (h : hasher) (x : nsec) (m : names) (off : nat)
  : res (nat * names) :=
  let '(k, m') := fqdn_byte_size_compressed h (ns_next x) m off in
  let! n := types_byte_size c (ns_types x) in Ok ((k + n)%nat, m').
Definition nsec_to_bytes_compressed (c : cfg) (h : hasher) (x : nsec) (m : names) (off : nat)
  : res (bytes * names) :=
  let '(nb, m') := fqdn_to_bytes_compressed h (ns_next x) m off in
  let! bs := types_to_bytes c (ns_types x) in
  Ok (nb ++ bs, m').

(** dnssec.rs:218-224, 277-290, 305-307, 309-317. *)
Record dnskey := mkDnskey { dk_zone : bool; dk_sep : bool; dk_protocol : N; dk_alg : salg;
                            dk_pk : bytes }.
(** dnssec.rs:227-235, 242-245. *)
Definition dnskey_new (a : salg) (pk : bytes) : dnskey := mkDnskey false false 3 a pk.
Definition dnskey_valid_protocol (k : dnskey) : bool := dk_protocol k =? 3.
Definition dnskey_try_from : P dnskey :=
  f <- extract_u16 ;;
  p <- extract_u8 ;;
  a <- extract_u8_as salg_try_from ;;
  k <- extract_rest ;;
  ret (mkDnskey (negb (N.land f 256 =? 0)) (negb (N.land f 1 =? 0)) p a k).
Definition dnskey_byte_size (x : dnskey) : nat := 4 + length (dk_pk x).
Definition dnskey_to_bytes (x : dnskey) : bytes :=
  be 2 (N.lor (if dk_zone x then 256 else 0) (if dk_sep x then 1 else 0))
  ++ [dk_protocol x] ++ [salg_code (dk_alg x)] ++ dk_pk x.

(** dnssec.rs:257-271, [compute_key_tag]: u32 accumulation over the record data bytes. *)
Fixpoint key_tag_sum (c : cfg) (even : bool) (l : bytes) (acc : N) : res N :=
  match l with
  | [] => Ok acc
  | b :: l' => let! a := uadd c M32 acc (if even then N.shiftl b 8 else b) in
               key_tag_sum c (negb even) l' a
  end.
Definition compute_key_tag (c : cfg) (x : dnskey) : res N :=
  let! s := key_tag_sum c true (dnskey_to_bytes x) 0 in
  let! t := uadd c M32 s (N.land (N.shiftr s 16) 65535) in
  Ok (N.land t 65535).

(** dnssec.rs:330-335, 384-391, 406-408, 410-417. *)
Record ds := mkDs { ds_tag : N; ds_alg : salg; ds_dt : digest_type; ds_digest : bytes }.
Definition ds_try_from : P ds :=
  t <- extract_u16 ;;
  a <- extract_u8_as salg_try_from ;;
  d <- extract_u8_as digest_type_try_from ;;
  g <- extract_rest ;;
  ret (mkDs t a d g).
Definition ds_byte_size (x : ds) : nat := 4 + length (ds_digest x).
Definition ds_to_bytes (x : ds) : bytes :=
  be 2 (ds_tag x) ++ [salg_code (ds_alg x)] ++ [digest_type_code (ds_dt x)] ++ ds_digest x.

(** dnssec.rs:426-436, 682-694, 709-711, 713-725. *)
Record rrsig := mkRrsig { rs_type : rtype; rs_alg : salg; rs_labels : N; rs_ttl : N; rs_exp : N;
                          rs_inc : N; rs_tag : N; rs_signer : fqdn; rs_sig : bytes }.
Definition rrsig_try_from (c : cfg) : P rrsig :=
  t <- extract_u16_as (rtype_try_from c) ;;
  a <- extract_u8_as salg_try_from ;;
  l <- extract_u8 ;;
  o <- extract_u32 ;;
  e <- extract_u32 ;;
  i <- extract_u32 ;;
  k <- extract_u16 ;;
  f <- extract_fqdn ;;
  s <- extract_rest ;;
  ret (mkRrsig t a l o e i k f s).
Definition rrsig_byte_size (x : rrsig) : nat := 17 + fqdn_len (rs_signer x) + length (rs_sig x).
Definition rrsig_to_bytes (x : rrsig) : bytes :=
  be 2 (rtype_code (rs_type x)) ++ [salg_code (rs_alg x)] ++ [rs_labels x] ++ be 4 (rs_ttl x)
  ++ be 4 (rs_exp x) ++ be 4 (rs_inc x) ++ be 2 (rs_tag x) ++ fqdn_to_bytes (rs_signer x) ++ rs_sig x.
