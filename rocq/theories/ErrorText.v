(** * Model: the text of an error (error.rs:4-5, 87-91)

    [write!(f, "DnsError: {:?}", &self)]: the derived [Debug] writes the name of the variant and, in parentheses, its number in decimal.  The texts inside the
    errors of signing and verifying come from other crates; here they are an argument ([detail], with its quotes and escapes). *)
From Coq Require Import String Ascii.
From Verif Require Import Base.
Open Scope string_scope.
Open Scope list_scope.
Open Scope N_scope.

Definition ascii_text (s : string) : bytes := map N_of_ascii (list_ascii_of_string s).
(** [Debug for u8] and [u16]: decimal digits without leading zeros. *)
Fixpoint decimal_digits (fuel : nat) (n : N) : bytes :=
  match fuel with
  | O => []
  | S fuel => (if n <? 10 then [] else decimal_digits fuel (n / 10)) ++ [48 + n mod 10]
  end.
Definition decimal (n : N) : bytes := decimal_digits (S (N.to_nat (N.log2 n))) n.
Definition with_payload (name : string) (payload : bytes) : bytes := ascii_text name ++ [40] ++ payload ++ [41].
Definition error_debug (e : dns_error) (detail : bytes) : bytes :=
  match e with
  | InvalidClass n => with_payload "InvalidClass" (decimal n)
  | InvalidType n => with_payload "InvalidType" (decimal n)
  | InvalidResponseCode n => with_payload "InvalidResponseCode" (decimal n)
  | InvalidPacketData => ascii_text "InvalidPacketData"
  | LengthViolation => ascii_text "LengthViolation"
  | UnresolveableCompressionPointer => ascii_text "UnresolveableCompressionPointer"
  | InvalidAplFamily n => with_payload "InvalidAplFamily" (decimal n)
  | InvalidCsyncFlag n => with_payload "InvalidCsyncFlag" (decimal n)
  | InvalidSSHFPAlgorithm n => with_payload "InvalidSSHFPAlgorithm" (decimal n)
  | InvalidSSHFPFingerprintType n => with_payload "InvalidSSHFPFingerprintType" (decimal n)
  | InvalidIpSecKeyGatewayType n => with_payload "InvalidIpSecKeyGatewayType" (decimal n)
  | InvalidNaptrFlag n => with_payload "InvalidNaptrFlag" (decimal n)
  | InvalidTkeyMode n => with_payload "InvalidTkeyMode" (decimal n)
  | InvalidTkeyError n => with_payload "InvalidTkeyError" (decimal n)
  | InvalidIdentifierTypeError n => with_payload "InvalidIdentifierTypeError" (decimal n)
  | InvalidTLSACertUsage n => with_payload "InvalidTLSACertUsage" (decimal n)
  | InvalidTLSASelector n => with_payload "InvalidTLSASelector" (decimal n)
  | InvalidTLSAMatchingType n => with_payload "InvalidTLSAMatchingType" (decimal n)
  | InvalidSvcbParam n => with_payload "InvalidSvcbParam" (decimal n)
  | InvalidDigestType n => with_payload "InvalidDigestType" (decimal n)
  | InvalidDnsSecAlgorithm n => with_payload "InvalidDnsSecAlgorithm" (decimal n)
  | InvalidDnsSecSignatureTimespan => with_payload "InvalidDnsSecSignatureTimespan" detail
  | DnsSecVerificationError => with_payload "DnsSecVerificationError" detail
  | DnsSecSigningError => with_payload "DnsSecSigningError" detail
  end.
(** error.rs:87-91. *)
Definition error_display (e : dns_error) (detail : bytes) : bytes := ascii_text "DnsError: " ++ error_debug e detail.
