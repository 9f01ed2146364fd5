(** * Records without data, as dynamic updates carry them (RFC 2136 2.4, 2.5). *)
From Verif Require Import Base Buffer Fqdn Types RDataBasic RData.

(** A record with no data: name, type, class, TTL 0, data length 0.  With class ANY (255) it stands for "this set of records exists" in
    the prerequisites and for "delete this set of records" in the update section; with class NONE (254), for "this set does not exist". *)
Definition no_data (f : fqdn) (t v : N) : bytes := fqdn_to_bytes f ++ be 2 t ++ be 2 v ++ be 4 0 ++ be 2 0.

(** What each type makes of no octets. *)
Definition without_data (t : rtype) : res rdata :=
  match t with
  | NULL => Ok (DNULL []) | TXT => Ok (DTXT []) | OPT => Ok (DOPT []) | OPENPGPKEY => Ok (DOPENPGPKEY [])
  | NS | CNAME | PTR | SOA | MINFO | NSEC | TKEY | TSIG => Panic
  | _ => Err LengthViolation
  end.

