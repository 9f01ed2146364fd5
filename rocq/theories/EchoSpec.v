(** * Specification: questions that are spelled out in a message.

    Only RFC 1035 is needed: labels one after the other up to the root, without a pointer; then type and class. *)
From Verif Require Import Base Buffer Fqdn Types Packet NameSpec WireSpec.

(** The name [ls] is spelled out at [p], up to [q]. *)
Inductive spelled (d : bytes) : nat -> list bytes -> nat -> Prop :=
| spelled_root p : nth_error d p = Some 0 -> spelled d p [] (p + 1)
| spelled_label p l ls q : label_at d 191 p l -> spelled d (p + 1 + length l) ls q -> spelled d p (l :: ls) q.

(** The name of [q] is spelled out at [p], and behind it and the type stands the class field. A build without mdns has no place for
    bit 15 of the class. *)
Definition spelled_question (c : cfg) (d : bytes) (p : nat) (q : question) (e : nat) : Prop :=
  exists k v, spelled d p (q_name q) k /\ u16_at d (k + 2) v /\ (mdns c = true \/ v < 32768) /\ e = (k + 4)%nat.

(** The octets from [a] up to [b]. *)
Definition between (a b : nat) (d : bytes) : bytes := slice d a (b - a).
