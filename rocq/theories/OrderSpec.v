(** * Specification: how many octets the names of a message take when every tail is written out once. *)
From Verif Require Import Base Buffer Fqdn.

Definition name_eq_dec : forall a b : list (list N), {a = b} + {a <> b} := list_eq_dec (list_eq_dec N.eq_dec).
(** The name itself and what is left of it when labels are taken off the front, down to the last label. *)
Fixpoint tails_of (f : list (list N)) : list (list (list N)) :=
  match f with [] => [] | _ :: r => f :: tails_of r end.
Definition distinct_tails (fs : list (list (list N))) : list (list (list N)) := nodup name_eq_dec (flat_map tails_of fs).
(** Each tail stands for its first label: the octet with the length, then the label. *)
Definition first_label (t : list (list N)) : nat := match t with [] => 0 | l :: _ => 1 + length l end.
Definition total {X} (g : X -> nat) (l : list X) : nat := fold_right (fun x n => (g x + n)%nat) 0%nat l.
Definition is_root (f : list (list N)) : nat := match f with [] => 1 | _ => 0 end.
Definition is_top (t : list (list N)) : nat := match t with [_] => 1 | _ => 0 end.

(** Every distinct tail is written once; every name ends with two octets, a pointer, or with one: the root, and the name that
    is the first to use its last label. *)
Definition shared (fs : list (list (list N))) (n : nat) : Prop :=
  (n + total is_root fs + total is_top (distinct_tails fs) = total first_label (distinct_tails fs) + 2 * length fs)%nat.

(** ** All ways to write names one after the other with pointers (RFC 1035 section 4.1.4) *)
(** The tails of [a ++ t] that are longer than [t]. *)
Fixpoint longer (a t : list (list N)) : list (list (list N)) :=
  match a with [] => [] | l :: a' => (a ++ t) :: longer a' t end.
(** [ways seen fs n]: where the tails [seen] have been written out before, the names [fs] can be written with [n] octets: each either in full
    or as some labels and a pointer to a tail written out before. *)
Inductive ways : list (list (list N)) -> list (list (list N)) -> nat -> Prop :=
| nothing seen : ways seen [] 0
| in_full seen f fs n : ways (tails_of f ++ seen) fs n -> ways seen (f :: fs) (total first_label (tails_of f) + 1 + n)
| pointing seen a t fs n : In t seen -> ways (longer a t ++ seen) fs n ->
    ways seen ((a ++ t) :: fs) (total first_label (longer a t) + 2 + n).
