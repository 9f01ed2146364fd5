(** * Specification: base64, RFC 4648, section 4 *)
From Coq Require Import String Ascii.
From Verif Require Import Base.

(** Table 1. *)
Definition base64_alphabet : bytes := map N_of_ascii (list_ascii_of_string "ABCDEFGHIJKLMNOPQRSTUVWXYZabcdefghijklmnopqrstuvwxyz0123456789+/").
Definition pad_character : N := N_of_ascii "=".
(** The lowest [w] bits of a number, the most significant first. *)
Fixpoint bits (w : nat) (n : N) : list bool := match w with O => [] | S w => N.testbit n (N.of_nat w) :: bits w n end.
(** The octets are one string of bits, with less than six zero bits behind it so that it can be cut into groups of six; each group is a
    character of the alphabet; pad characters make the number of characters a multiple of four. *)
Definition base64_text (bs text : bytes) : Prop := exists (digits : list N) (zeros pads : nat),
  Forall (fun n => n < 64) digits /\ flat_map (bits 6) digits = flat_map (bits 8) bs ++ repeat false zeros /\ (zeros < 6)%nat /\
  text = (map (fun n => nth (N.to_nat n) base64_alphabet 0) digits ++ repeat pad_character pads)%list /\ (length text mod 4 = 0)%nat /\ (pads < 4)%nat.
