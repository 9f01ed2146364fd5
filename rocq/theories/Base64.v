(** * Model: the textual forms of keys and signatures *)
From Verif Require Import Base Header Types RDataBasic Bitmap RDataSec.

(** The crate base64 0.21, alphabet of [general_purpose::STANDARD]: the character for six bits.  External code: the crate is modelled, not read. *)
Definition b64_char (n : N) : N :=
  if n <? 26 then 65 + n else if n <? 52 then 71 + n else if n <? 62 then n - 4 else if n =? 62 then 43 else 47.
(** [STANDARD.encode]: three octets become four characters, the last group is padded. *)
Fixpoint b64_encode (bs : bytes) : bytes :=
  match bs with
  | a :: b :: c :: r => b64_char (a / 4) :: b64_char (a mod 4 * 16 + b / 16) :: b64_char (b mod 16 * 4 + c / 64) :: b64_char (c mod 64) :: b64_encode r
  | [a; b] => [b64_char (a / 4); b64_char (a mod 4 * 16 + b / 16); b64_char (b mod 16 * 4); 61]
  | [a] => [b64_char (a / 4); b64_char (a mod 4 * 16); 61; 61]
  | [] => []
  end.
(** dnssec.rs:247-251. *)
Definition base64_public_key (k : dnskey) : bytes := b64_encode (dk_pk k).
(** dnssec.rs:505-509. *)
Definition base64_signature (s : rrsig) : bytes := b64_encode (rs_sig s).
