(** * Property C83: the base64 texts of keys and signatures *)
From Coq Require Import String Ascii Lia.
From Verif Require Import Base BaseFacts Header Types RDataBasic Bitmap RDataSec Base64 Base64Spec Base64Facts.

(** The text is the base64 text of RFC 4648 for the key's octets, and there is no other. *)
Theorem C83_public_key : forall (k : dnskey) (text : bytes), byte_list (dk_pk k) -> text = base64_public_key k <-> base64_text (dk_pk k) text.
Proof. intros k text. apply encode_exact. Qed.
Theorem C83_signature : forall (s : rrsig) (text : bytes), byte_list (rs_sig s) -> text = base64_signature s <-> base64_text (rs_sig s) text.
Proof. intros s text. apply encode_exact. Qed.
(** Different keys, and different signatures, have different texts. *)
Theorem C83_distinct : forall (bs bs' text : bytes), byte_list bs -> byte_list bs' -> base64_text bs text -> base64_text bs' text -> bs = bs'.
Proof. exact text_injective. Qed.
Theorem C83_keys : forall k k' : dnskey, byte_list (dk_pk k) -> byte_list (dk_pk k') -> base64_public_key k = base64_public_key k' -> dk_pk k = dk_pk k'.
Proof.
  intros k k' B B' E. apply (text_injective _ _ (base64_public_key k) B B'); [apply encode_text, B|rewrite E; apply encode_text, B'].
Qed.
Theorem C83_signatures : forall s s' : rrsig, byte_list (rs_sig s) -> byte_list (rs_sig s') -> base64_signature s = base64_signature s' -> rs_sig s = rs_sig s'.
Proof.
  intros s s' B B' E. apply (text_injective _ _ (base64_signature s) B B'); [apply encode_text, B|rewrite E; apply encode_text, B'].
Qed.
(** Four characters for every three octets begun. *)
Theorem C83_length : forall (k : dnskey) (s : rrsig), length (base64_public_key k) = (4 * ((length (dk_pk k) + 2) / 3))%nat /\
  length (base64_signature s) = (4 * ((length (rs_sig s) + 2) / 3))%nat.
Proof. intros k s. split; apply encode_length. Qed.
(** RFC 4648, 10. *)
Definition octets_of (s : string) : bytes := map N_of_ascii (list_ascii_of_string s).
Example C83_ex : Forall (fun v => base64_public_key (mkDnskey true false 3 RSA_SHA256 (octets_of (fst v))) = octets_of (snd v) /\ byte_list (octets_of (fst v)))
  [("", ""); ("f", "Zg=="); ("fo", "Zm8="); ("foo", "Zm9v"); ("foob", "Zm9vYg=="); ("fooba", "Zm9vYmE="); ("foobar", "Zm9vYmFy")]%string.
Proof. repeat (apply Forall_cons; [split; [reflexivity|repeat constructor]|]). apply Forall_nil. Qed.
Print Assumptions C83_public_key.
Print Assumptions C83_signature.
Print Assumptions C83_distinct.
Print Assumptions C83_keys.
Print Assumptions C83_signatures.
Print Assumptions C83_length.
