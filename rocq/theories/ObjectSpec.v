(** * Specification: histories of setter calls on questions and records; sizes; equality of names. *)
From Coq Require Import Sorting.Sorted.
From Verif Require Import Base Buffer Fqdn Header Types RDataBasic Bitmap Svcb RDataSec RData Packet Api.

(** ** Setter calls.  What is observable of a field is the value given to it last. *)
Inductive qcall := QName (f : list bytes) | QType (t : qtype) | QClass (k : qclass) | QUnicast (b : bool).
Definition qrun (q : question) (k : qcall) : question :=
  match k with
  | QName f => question_set_name q f | QType t => question_set_type q t
  | QClass x => question_set_class q x | QUnicast b => question_set_unicast q b
  end.
Inductive rcall := RName (f : list bytes) | RType (t : rtype) | RClass (k : rclass) | RTtl (n : N) | RFlush (b : bool) | RData (d : rdata).
Definition rrun (r : rr) (k : rcall) : rr :=
  match k with
  | RName f => rr_set_name r f | RType t => rr_set_type r t | RClass x => rr_set_class r x
  | RTtl n => rr_set_ttl r n | RFlush b => rr_set_flush r b | RData d => rr_set_data r d
  end.
(** The values given by the calls that [pick] selects, in order. *)
Definition given {K V} (pick : K -> option V) (ks : list K) : list V :=
  flat_map (fun k => match pick k with Some v => [v] | None => [] end) ks.
(** The last element of a list, or a value to start from. *)
Definition latest {V} (start : V) (vs : list V) : V := last vs start.

(** ** The same domain name (RFC 4343): label by label, upper and lower case of ASCII letters equal. *)
Definition fold_case (o : N) : N := if (65 <=? o) && (o <=? 90) then o + 32 else o.
Definition same_name (f g : list bytes) : Prop := map (map fold_case) f = map (map fold_case) g.

(** ** RFC 1035, 2.3.4: labels of at most 63 octets, names of at most 255. *)
Definition octets_in_name (f : list bytes) : nat := fold_right (fun l n => 1 + length l + n)%nat 1%nat f.
Definition rfc_sizes (f : list bytes) : Prop := Forall (fun l : bytes => (length l <= 63)%nat) f /\ (octets_in_name f <= 255)%nat.

(** ** A total order in agreement with equality (the contract of Rust's [Ord]) *)
Definition ord_contract {X} (such : X -> Prop) (cmp : X -> X -> comparison) : Prop :=
  (forall a b, such a -> such b -> (cmp a b = Eq <-> a = b)) /\
  (forall a b, cmp b a = CompOpp (cmp a b)) /\
  (forall a b d, cmp a b = Lt -> cmp b d = Lt -> cmp a d = Lt).
(** Lexicographic order: at the first difference, or by length. *)
Inductive before {X} (lt : X -> X -> Prop) : list X -> list X -> Prop :=
| before_end y b : before lt [] (y :: b)
| before_here x y a b : lt x y -> before lt (x :: a) (y :: b)
| before_later x a b : before lt a b -> before lt (x :: a) (x :: b).
(** The canonical order of names (RFC 4034, 6.1): the last label first, labels as octet strings in lower case. *)
Definition canonically_before (f g : list bytes) : Prop :=
  before (before N.lt) (rev (map (map fold_case) f)) (rev (map (map fold_case) g)).
(** SVCB parameters as received: sorted by key number, one per key (RFC 9460, 2.2). *)
Definition one_per_key (ps : list param) : Prop := StronglySorted (fun a b => param_cmp a b = Lt) ps.

(** ** The struct of each record type and the number of the type (IANA). *)
Definition payload_number (s : payload) : N :=
  match s with
  | SA _ => 1 | SNs _ => 2 | SCname _ => 5 | SSoa _ => 6 | SNull _ => 10 | SWks _ => 11 | SPtr _ => 12 | SHinfo _ => 13
  | SMinfo _ => 14 | SMx _ => 15 | STxt _ => 16 | SAaaa _ => 28 | SLoc _ => 29 | SSrv _ => 33 | SNaptr _ => 35
  | SOpt _ => 41 | SApl _ => 42 | SDs _ => 43 | SSshfp _ => 44 | SIpSecKey _ => 45 | SRrsig _ => 46 | SNsec _ => 47
  | SDnsKey _ => 48 | SDhcid _ => 49 | STlsa _ => 52 | SHip _ => 55 | SOpenPgpKey _ => 61 | SCsync _ => 62
  | SSvcb _ => 64 | SEui48 _ => 108 | SEui64 _ => 109 | STkey _ => 249 | STsig _ => 250 | SUri _ => 256 | SCaa _ => 257
  end.
