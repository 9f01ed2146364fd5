(** * Specification: texts of addresses *)
From Verif Require Import Base.

(** A number up to 255 in decimal, without leading zeros. *)
Definition octet_text (s : bytes) (n : N) : Prop :=
  s <> [] /\ Forall (fun b => 48 <= b <= 57) s /\ (hd 0 s = 48 -> s = [48]) /\ n = fold_left (fun n b => 10 * n + (b - 48)) s 0 /\ n <= 255.
(** Four of them with dots in between. *)
Definition dotted (s : bytes) (os : list N) : Prop :=
  exists p q r t a b c d, s = p ++ [46] ++ q ++ [46] ++ r ++ [46] ++ t /\ os = [a; b; c; d]
    /\ octet_text p a /\ octet_text q b /\ octet_text r c /\ octet_text t d.

(** One to four hexadecimal digits of either case. *)
Definition hex_digit (b d : N) : Prop := (48 <= b <= 57 /\ d = b - 48) \/ (97 <= b <= 102 /\ d = b - 97 + 10) \/ (65 <= b <= 70 /\ d = b - 65 + 10).
Definition group_text (s : bytes) (n : N) : Prop :=
  (1 <= length s <= 4)%nat /\ exists ds, Forall2 hex_digit s ds /\ n = fold_left (fun n d => 16 * n + d) ds 0.
(** One or more groups with colons in between. *)
Inductive groups_text : bytes -> list N -> Prop :=
| gt_one s n : group_text s n -> groups_text s [n]
| gt_more s n t l : group_text s n -> groups_text t l -> groups_text (s ++ [58] ++ t) (n :: l).
(** The same; the last two may be written as an IPv4 address. *)
Inductive end_text : bytes -> list N -> Prop :=
| et_one s n : group_text s n -> end_text s [n]
| et_dotted s a b c d : dotted s [a; b; c; d] -> end_text s [256 * a + b; 256 * c + d]
| et_more s n t l : group_text s n -> end_text t l -> end_text (s ++ [58] ++ t) (n :: l).
Definition maybe (R : bytes -> list N -> Prop) (s : bytes) (l : list N) : Prop := (s = [] /\ l = []) \/ R s l.
(** RFC 4291, 2.2: eight groups, or fewer around one "::" that stands for the zeros missing. *)
Definition rfc4291_text (s : bytes) (gs : list N) : Prop :=
  (end_text s gs /\ length gs = 8%nat)
  \/ exists h t hs ts, s = h ++ [58; 58] ++ t /\ maybe groups_text h hs /\ maybe end_text t ts
       /\ (length hs + length ts <= 7)%nat /\ gs = hs ++ repeat 0 (8 - length hs - length ts) ++ ts.
