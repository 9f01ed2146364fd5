(** * Specification: the data of a received record as it stood in the message *)
From Verif Require Import Base Buffer Fqdn Header Types RDataBasic Bitmap Svcb RDataSec RData Packet BaseFacts NameSpec FailSpec ReadSpec.

(** The record [r] was read between [p] and [e]; its data are the octets behind the fixed fields (RFC 1035, 4.1.3:
    ten octets behind the owner's name) up to the end of the record. *)
Definition data_received (c : cfg) (d : bytes) (p : nat) (r : rr) (e : nat) (bs : bytes) : Prop :=
  rr_try_from c (mkbuf d p) = (Ok r, mkbuf d e) /\
  exists k, name_at d 191 p (rr_name r) k /\ (k + 10 <= e <= length d)%nat /\ bs = slice d (k + 10) (e - (k + 10)).

(** Types whose data have no names and no field of which anything is dropped or repaired. *)
Definition plain_types : list rtype := [A; NULL; WKS; HINFO; AAAA; LOC; DS; CDS; OPENPGPKEY; DHCID; TLSA; EUI48; EUI64; URI].
(** Types with names as the only field that can be written in several ways. *)
Definition name_types : list rtype := [NS; CNAME; PTR; SOA; MINFO; MX; SRV; RRSIG; TKEY; TSIG].
(** The names of the data are written in full: at each of its places in the record's octets a name is its labels, each behind its
    length, and an octet 0. *)
Definition names_in_full (w : bytes) (t : rtype) (q : nat) : Prop :=
  forall p f m, name_place w t q p -> name_at w 191 p f m -> octets_at w p (flat_map (fun l => N.of_nat (length l) :: l) f ++ [0]).
