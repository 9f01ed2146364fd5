(** * Specification: the data of a record changed in place.

    Address translators put another address into the replies that pass them. *)
From Verif Require Import Base Buffer Fqdn Header Types RData Packet PatchSpec.

Definition rr_with_data (r : rr) (x : rdata) : rr := mkRR (rr_name r) (rr_type r) (rr_flush r) (rr_class r) (rr_ttl r) x.
(** The element with index [i] replaced by what [f] makes of it. *)
Fixpoint at_index {A} (i : nat) (f : A -> A) (l : list A) : list A :=
  match l, i with
  | [], _ => []
  | x :: l', O => f x :: l'
  | x :: l', S i' => x :: at_index i' f l'
  end.
(** The packet with other data in the [i]th record of a section. *)
Definition with_data (s : section) (i : nat) (x : rdata) (p : packet) : packet :=
  let f := at_index i (fun r => rr_with_data r x) in
  match s with
  | Answers => mkPacket (p_header p) (p_questions p) (f (p_answers p)) (p_authorities p) (p_additionals p)
  | Authorities => mkPacket (p_header p) (p_questions p) (p_answers p) (f (p_authorities p)) (p_additionals p)
  | Additionals => mkPacket (p_header p) (p_questions p) (p_answers p) (p_authorities p) (f (p_additionals p))
  end.
(** What [f] makes of a value; errors, panics and endless loops are kept. *)
Definition outcome {A B} (o : res A) (f : A -> B) : res B :=
  match o with Ok x => Ok (f x) | Err e => Err e | Panic => Panic | Diverge => Diverge end.
(** What stands in the [n] octets at [a], taken for the data of a record of type [t]: names in it may lead to earlier parts of the message. *)
Definition data_at (c : cfg) (t : rtype) (d : bytes) (a n : nat) : res rdata := fst (rdata_from c t (mkbuf (firstn (a + n) d) a)).
