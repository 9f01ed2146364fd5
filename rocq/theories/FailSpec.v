(** * Specification: the messages on which parsing a packet panics or never ends.

    Everything is said about the raw octets: which names the record types contain and where, where an
    entry of a section starts, and what can go wrong there. *)
From Verif Require Import Base Buffer Fqdn Header Types RDataBasic Bitmap Svcb RDataSec RData Packet BaseFacts NameSpec
  CodeSpec HeaderSpec WireSpec.

(** The two ways in which a call can fail to return. *)
Inductive failure : Set := Panics | Loops.
Definition fails {A} (f : failure) (r : res A) : Prop := match f with Panics => r = Panic | Loops => r = Diverge end.
(** A name that cannot be read without one or the other (see NameSpec.v). *)
Definition bad_name (f : failure) (d : bytes) (p : nat) : Prop :=
  match f with Panics => runs_off d p | Loops => circular d p end.

(** ** Where the data of a record of each type contains names

    [name_place w t q p]: in data of type [t] starting at [q], a name is expected at [p].  [w] is the
    message cut at the end of the record. *)
Definition octet_at (w : bytes) (p : nat) (n : nat) : Prop := nth_error w p = Some (N.of_nat n).
Inductive name_place (w : bytes) : rtype -> nat -> nat -> Prop :=
| first_thing t q : In t [NS; CNAME; PTR; SOA; MINFO; NSEC; TKEY; TSIG] -> name_place w t q q
| second_name t q f p : In t [SOA; MINFO] -> name_at w 191 q f p -> name_place w t q p
| after_number t q : In t [MX; SVCB] -> name_place w t q (q + 2)
| after_three_numbers q : name_place w SRV q (q + 6)
| signer q : name_place w RRSIG q (q + 18)
| replacement q i j k : octet_at w (q + 4) i -> octet_at w (q + 5 + i) j -> octet_at w (q + 6 + i + j) k ->
    name_place w NAPTR q (q + 7 + i + j + k)
| gateway_name q : octet_at w (q + 1) 3 -> name_place w IPSECKEY q (q + 3)
| rendezvous q hl pl fs p : octet_at w q hl -> u16_at w (q + 2) pl ->
    consecutive (name_at w 191) (q + 4 + hl + N.to_nat pl) fs p -> (p < length w)%nat -> name_place w HIP q p.

(** ** What overflows in builds with overflow checks *)

(** A window of a type bitmap: its number, its length and its octets. *)
Definition window_at (w : bytes) (p : nat) (x : N * bytes) (e : nat) : Prop :=
  nth_error w p = Some (fst x) /\ nth_error w (p + 1) = Some (N.of_nat (length (snd x))) /\
  (p + 2 + length (snd x) <= length w)%nat /\ slice w (p + 2) (length (snd x)) = snd x /\ e = (p + 2 + length (snd x))%nat.
(** Windows from [q] on, the last of which has a bit set for a number of more than sixteen bits. *)
Definition bitmap_overflow (w : bytes) (q : nat) : Prop :=
  exists xs p x e i o j, consecutive (window_at w) q xs p /\ window_at w p x e /\
    nth_error (snd x) i = Some o /\ (j < 8)%nat /\ N.testbit o (7 - N.of_nat j) = true /\
    65536 <= 256 * fst x + 8 * N.of_nat i + N.of_nat j.
(** An SVCB parameter at [p] whose announced length is not met by whole elements: an odd length for a
    list of keys; a string that reaches beyond the announced end. *)
Definition string_at (w : bytes) (p : nat) (s : bytes) (e : nat) : Prop :=
  octet_at w p (length s) /\ (p + 1 + length s <= length w)%nat /\ slice w (p + 1) (length s) = s /\ e = (p + 1 + length s)%nat.
Definition param_underflow (w : bytes) (p : nat) : Prop :=
  exists len, u16_at w (p + 2) len /\
    (u16_at w p 0 /\ len mod 2 = 1 \/
     u16_at w p 1 /\ exists ss k s e, consecutive (string_at w) (p + 4) ss k /\ (k < p + 4 + N.to_nat len)%nat /\
                       string_at w k s e /\ (p + 4 + N.to_nat len < e)%nat).
Definition overflow_in (w : bytes) (t : rtype) (q : nat) : Prop :=
  match t with
  | NSEC => exists f k, name_at w 191 q f k /\ bitmap_overflow w k
  | CSYNC => bitmap_overflow w (q + 6)
  | SVCB => exists f k p, name_at w 191 (q + 2) f k /\ (k <= p)%nat /\ param_underflow w p
  | _ => False
  end.

(** ** Where parsing can stop *)

(** At [p], where a question is expected. *)
Definition question_fails (f : failure) (d : bytes) (p : nat) : Prop := bad_name f d p.
(** At [p], where a record is expected: in its name, or, everything up to its data being readable, in
    its data. *)
Definition record_fails (f : failure) (c : cfg) (d : bytes) (p : nat) : Prop :=
  bad_name f d p \/
  exists nm k t len e, name_at d 191 p nm k /\ u16_at d k (rtype_code t) /\ decodable c t /\
    u16_at d (k + 8) len /\ e = (k + 10 + N.to_nat len)%nat /\ (e <= length d)%nat /\
    fails f (fst (rdata_from c t (mkbuf (firstn e d) (k + 10)))).

(** Of [n] entries expected from [p] on, one is reached that fails. *)
Definition section_fails {X} (entry : nat -> X -> nat -> Prop) (bad : nat -> Prop) (n : N) (p : nat) : Prop :=
  exists xs m, N.of_nat (length xs) < n /\ consecutive entry p xs m /\ bad m.
(** All [n] entries expected from [p] on are there. *)
Definition section_reads {X} (entry : nat -> X -> nat -> Prop) (n : N) (p e : nat) : Prop :=
  exists xs, N.of_nat (length xs) = n /\ consecutive entry p xs e.

Definition packet_fails (f : failure) (c : cfg) (d : bytes) : Prop :=
  (12 <= length d)%nat /\
  (section_fails (question_at c d) (question_fails f d) (v_qd (fields_of d)) 12 \/
   exists e1, section_reads (question_at c d) (v_qd (fields_of d)) 12 e1 /\
   (section_fails (record_at c d) (record_fails f c d) (v_an (fields_of d)) e1 \/
    exists e2, section_reads (record_at c d) (v_an (fields_of d)) e1 e2 /\
    (section_fails (record_at c d) (record_fails f c d) (v_ns (fields_of d)) e2 \/
     exists e3, section_reads (record_at c d) (v_ns (fields_of d)) e2 e3 /\
       section_fails (record_at c d) (record_fails f c d) (v_ar (fields_of d)) e3))).
