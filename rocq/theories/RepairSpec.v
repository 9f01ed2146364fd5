(** * Specification: what becomes of octets that are not UTF-8.

    The Unicode Standard, 3.9, "U+FFFD Substitution of Maximal Subparts", which
    [String::from_utf8_lossy] documents to follow: characters are kept; where no character stands, the
    longest beginning of a character, or else one octet, is replaced by U+FFFD.  [scalar] and
    [utf8_encode] are RFC 3629 (Utf8Facts.v). *)
From Verif Require Import Base Utf8Facts.

Definition is_char (s : bytes) : Prop := exists cp, scalar cp /\ s = utf8_encode cp.
(** [s] is the beginning of a character, but not all of it. *)
Definition begins_char (s : bytes) : Prop := exists cp t, scalar cp /\ utf8_encode cp = s ++ t /\ t <> [].
(** In [s ++ l], [s] is a maximal subpart of an ill-formed sequence: it begins a character, or is one octet
    that is none; with the next octet it would do neither. *)
Definition maximal_subpart (s l : bytes) : Prop :=
  s <> [] /\ (begins_char s \/ length s = 1%nat /\ ~ is_char s) /\
  forall x l', l = x :: l' -> ~ begins_char (s ++ [x]) /\ ~ is_char (s ++ [x]).
Inductive repaired : bytes -> bytes -> Prop :=
| repaired_end : repaired [] []
| repaired_char s l r : is_char s -> repaired l r -> repaired (s ++ l) (s ++ r)
| repaired_part s l r : maximal_subpart s l -> repaired l r -> repaired (s ++ l) (utf8_encode 65533 ++ r).
