(** * Specification: when a signature may be used (RFC 4035, 5.3.1, and RFC 4034, 2.1 and 3.1)

    Only the fields of the values are used. *)
From Verif Require Import Base Fqdn Types RDataSec RData Packet Dnssec DnssecSpec.

(** RFC 1982: [a] is not after [b], for numbers of 32 bits that wrap around. *)
Definition not_after (a b : N) : Prop := (b + 4294967296 - a) mod 4294967296 < 2147483648.
(** [z] is the name of the zone [f] is in, or of one above it. *)
Definition at_or_below (f z : fqdn) : Prop := exists front, f = front ++ z.

Record usable (now : N) (r : rrsig) (k : dnskey) (s : rrset) : Prop := mkUsable {
  covers_type : rs_type r = set_type s;
  enough_labels : (N.to_nat (rs_labels r) <= rfc_labels (set_name s))%nat;
  signer_above : at_or_below (set_name s) (rs_signer r);
  begun : not_after (rs_inc r) now;
  not_expired : not_after now (rs_exp r);
  same_algorithm : rs_alg r = dk_alg k;
  same_tag : rs_tag r = rfc_key_tag (dnskey_rdata k);
  zone_key : dk_zone k = true;
  dnssec_protocol : dk_protocol k = 3 }.

(** The same signature record with another signature. *)
Definition signed_with (r : rrsig) (sig : bytes) : rrsig :=
  mkRrsig (rs_type r) (rs_alg r) (rs_labels r) (rs_ttl r) (rs_exp r) (rs_inc r) (rs_tag r) (rs_signer r) sig.
