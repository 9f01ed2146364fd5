(** * Specification: which domain name stands at a position of a message.

    RFC 1035 sections 3.1 and 4.1.4, written as an inductive relation on the raw bytes.  Nothing
    here refers to the model of the code. *)
From Verif Require Import Base.

(** A compression pointer: two octets, the first at least 192; the offset is the remaining 14
    bits. *)
Definition pointer_at (d : bytes) (p target : nat) : Prop :=
  exists a b, nth_error d p = Some a /\ 192 <= a < 256 /\
              nth_error d (p + 1) = Some b /\ b < 256 /\
              target = N.to_nat ((a - 192) * 256 + b).

(** A label: a length octet [1 .. maxlabel] followed by that many octets. *)
Definition label_at (d : bytes) (maxlabel : N) (p : nat) (l : bytes) : Prop :=
  exists n, nth_error d p = Some n /\ 1 <= n <= maxlabel /\
            (p + 1 + N.to_nat n <= length d)%nat /\ l = slice d (p + 1) (N.to_nat n).

(** [tail_at d maxlabel lim p ls]: reading at [p], following any further pointers as long as they
    lead below [lim], the labels up to the root are [ls]. *)
Inductive tail_at (d : bytes) (maxlabel : N) (lim : nat) : nat -> list bytes -> Prop :=
| tail_root p : nth_error d p = Some 0 -> tail_at d maxlabel lim p []
| tail_label p l ls :
    label_at d maxlabel p l -> tail_at d maxlabel lim (p + 1 + length l) ls ->
    tail_at d maxlabel lim p (l :: ls)
| tail_ptr p t ls :
    pointer_at d p t -> (t < lim)%nat -> tail_at d maxlabel lim t ls ->
    tail_at d maxlabel lim p ls.

(** [name_at d maxlabel p ls q]: the name written at [p] is [ls] and the octets that encode it at
    this place end at [q] (after the root octet or after the first pointer). Pointers lead backwards:
    no pointer of the name leads beyond the place where the first one stands. *)
Inductive name_at (d : bytes) (maxlabel : N) : nat -> list bytes -> nat -> Prop :=
| name_root p : nth_error d p = Some 0 -> name_at d maxlabel p [] (p + 1)
| name_label p l ls q :
    label_at d maxlabel p l -> name_at d maxlabel (p + 1 + length l) ls q ->
    name_at d maxlabel p (l :: ls) q
| name_ptr p t ls :
    pointer_at d p t -> (t <= p)%nat -> tail_at d maxlabel (p + 1) t ls ->
    name_at d maxlabel p ls (p + 2).

(** [strict_name_at]: the same, but every pointer leads to a complete "prior occurrence": the octets
    spelling the rest of the name stand, up to their root octet or next pointer, before the pointer. *)
Inductive strict_name_at (d : bytes) (maxlabel : N) : nat -> list bytes -> nat -> Prop :=
| strict_root p : nth_error d p = Some 0 -> strict_name_at d maxlabel p [] (p + 1)
| strict_label p l ls q :
    label_at d maxlabel p l -> strict_name_at d maxlabel (p + 1 + length l) ls q ->
    strict_name_at d maxlabel p (l :: ls) q
| strict_ptr p t ls q :
    pointer_at d p t -> strict_name_at d maxlabel t ls q -> (t < q <= p)%nat ->
    strict_name_at d maxlabel p ls (p + 2).

(** RFC 1035: in addition labels have at most 63 octets. *)
Definition rfc_name_at (d : bytes) := strict_name_at d 63.

(** ** Following a name, without asking whether it ends

    A reading state is the place of the first pointer met, if any, and the current place.  [hop]: one
    label or one pointer further. *)
Inductive hop (d : bytes) : option nat * nat -> option nat * nat -> Prop :=
| hop_label o p l : label_at d 191 p l -> hop d (o, p) (o, (p + 1 + length l)%nat)
| hop_first p t : pointer_at d p t -> (t <= p)%nat -> hop d (None, p) (Some p, t)
| hop_again o p t : pointer_at d p t -> (t <= o)%nat -> hop d (Some o, p) (Some o, t).

Inductive hops (d : bytes) : option nat * nat -> option nat * nat -> Prop :=
| hops_refl s : hops d s s
| hops_step s s' s'' : hop d s s' -> hops d s' s'' -> hops d s s''.

(** The reading runs in a circle. *)
Definition circular (d : bytes) (p : nat) : Prop :=
  exists s s', hops d (None, p) s /\ hop d s s' /\ hops d s' s.

(** The reading reaches the end of the message where an octet is needed, or a label that is cut off
    exactly one octet short. *)
Definition runs_off (d : bytes) (p : nat) : Prop :=
  exists o q, hops d (None, p) (o, q) /\
    (nth_error d q = None \/
     exists n, nth_error d q = Some n /\ 1 <= n <= 191 /\ (q + N.to_nat n)%nat = length d).
