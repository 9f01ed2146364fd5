(** * Specification: changing octets of a message in place.

    Forwarders give a message another ID, caches count the TTLs down, without taking the message apart. *)
From Verif Require Import Base Buffer Fqdn Header Packet.

(** The octets [x] put in place of those at offset [a]. *)
Definition patch (d : bytes) (a : nat) (x : bytes) : bytes := firstn a d ++ x ++ skipn (a + length x) d.

(** Where the pointer made of two octets leads (RFC 1035, 4.1.4). *)
Definition target (n m : N) : nat := N.to_nat ((n - 192) * 256 + m).
(** [looks d p q]: whoever reads a name at [p] looks at the octet at [q]. *)
Inductive looks (d : bytes) : nat -> nat -> Prop :=
| looks_here p : looks d p p
| looks_text p n i : nth_error d p = Some n -> n < 192 -> (i <= N.to_nat n)%nat -> looks d p (p + i)
| looks_next p n q : nth_error d p = Some n -> n < 192 -> n <> 0 -> looks d (p + 1 + N.to_nat n) q -> looks d p q
| looks_second p n : nth_error d p = Some n -> 192 <= n -> looks d p (p + 1)
| looks_jump p n m q : nth_error d p = Some n -> 192 <= n -> nth_error d (p + 1) = Some m -> looks d (target n m) q -> looks d p q.
(** Somewhere in the message are two octets that, taken for a pointer, lead to a name the octet at [q] is part of. *)
Definition pointed_at (d : bytes) (q : nat) : Prop := exists i n m,
  nth_error d i = Some n /\ 192 <= n /\ nth_error d (i + 1) = Some m /\ looks d (target n m) q.

(** The packet with another TTL in the [i]th record of a section. *)
Inductive section : Set := Answers | Authorities | Additionals.
Definition records (s : section) (p : packet) : list rr :=
  match s with Answers => p_answers p | Authorities => p_authorities p | Additionals => p_additionals p end.
Definition rr_with_ttl (r : rr) (t : N) : rr := mkRR (rr_name r) (rr_type r) (rr_flush r) (rr_class r) t (rr_data r).
Fixpoint list_with_ttl (i : nat) (t : N) (rs : list rr) : list rr :=
  match rs, i with
  | [], _ => []
  | r :: rs', O => rr_with_ttl r t :: rs'
  | r :: rs', S i' => r :: list_with_ttl i' t rs'
  end.
Definition with_ttl (s : section) (i : nat) (t : N) (p : packet) : packet :=
  match s with
  | Answers => mkPacket (p_header p) (p_questions p) (list_with_ttl i t (p_answers p)) (p_authorities p) (p_additionals p)
  | Authorities => mkPacket (p_header p) (p_questions p) (p_answers p) (list_with_ttl i t (p_authorities p)) (p_additionals p)
  | Additionals => mkPacket (p_header p) (p_questions p) (p_answers p) (p_authorities p) (list_with_ttl i t (p_additionals p))
  end.
(** The packet with another ID. *)
Definition with_id (i : N) (p : packet) : packet :=
  let h := p_header p in
  mkPacket (mkheader i (hflags h) (ques_count h) (ans_count h) (auth_count h) (add_count h))
    (p_questions p) (p_answers p) (p_authorities p) (p_additionals p).
