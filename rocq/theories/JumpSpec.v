(** * Specification: how many pointers are followed to read a name.

    Resolvers give up after some number of pointers: the one of Go after ten, others after 126 or so. *)
From Verif Require Import Base NameSpec.

(** [jumps d p f n]: the labels [f], read at [p], take [n] pointers (RFC 1035, 4.1.4). *)
Inductive jumps (d : bytes) : nat -> list bytes -> nat -> Prop :=
| no_jump p : nth_error d p = Some 0 -> jumps d p [] 0
| past_label p l f n : label_at d 191 p l -> jumps d (p + 1 + length l) f n -> jumps d p (l :: f) n
| one_jump p t f n : pointer_at d p t -> jumps d t f n -> jumps d p f (S n).

(** A table of a message's names: where each begins, its labels, where it ends. The names do not overlap. *)
Fixpoint in_order (from : nat) (t : list (nat * list bytes * nat)) : Prop :=
  match t with [] => True | (p, _, q) :: t' => (from <= p /\ p < q)%nat /\ in_order q t' end.
Definition table_names (t : list (nat * list bytes * nat)) : list (list bytes) := map (fun x => snd (fst x)) t.
(** RFC 1035, 2.3.4: the octets of a name, length octets and the root's included, are at most 255. *)
Definition within_255 (f : list bytes) : Prop := N.of_nat (length (concat f)) + N.of_nat (length f) + 1 <= 255.
