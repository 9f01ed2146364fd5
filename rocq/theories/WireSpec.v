(** * Specification: how questions, records and packets lie in a message (RFC 1035 section 4.1).

    Relations on the raw octets.  Only two things are taken from elsewhere: the relation [name_at] for
    names, and, for the type-specific part of a record, the parser of that type, applied to the octets
    up to the end of the record (so that it can see nothing behind it). *)
From Verif Require Import Base Buffer Fqdn Header Types RDataBasic Bitmap Svcb RDataSec RData Packet BaseFacts NameSpec
  CodeSpec HeaderSpec.

(** Big-endian numbers of two and four octets. *)
Definition u16_at (d : bytes) (p : nat) (n : N) : Prop :=
  exists a b, nth_error d p = Some a /\ a < 256 /\ nth_error d (p + 1) = Some b /\ b < 256 /\ n = a * 256 + b.
Definition u32_at (d : bytes) (p : nat) (n : N) : Prop :=
  exists hi lo, u16_at d p hi /\ u16_at d (p + 2) lo /\ n = hi * 65536 + lo.

(** Bit 15 of a class field, visible only in builds with the mdns feature. *)
Definition top_bit (c : cfg) (v : N) : bool := mdns c && (32768 <=? v).

(** The question [q] stands at [p] and ends before [e]. *)
Definition question_at (c : cfg) (d : bytes) (p : nat) (q : question) (e : nat) : Prop :=
  exists k v,
    name_at d 191 p (q_name q) k /\
    u16_at d k (qtype_code (q_type q)) /\ qdecodable c (q_type q) /\
    u16_at d (k + 2) v /\ qclass_code (q_class q) = v mod 32768 /\ q_unicast q = top_bit c v /\
    e = (k + 4)%nat.

(** The record [r] stands at [p] and ends before [e]. *)
Definition record_at (c : cfg) (d : bytes) (p : nat) (r : rr) (e : nat) : Prop :=
  exists k v len,
    name_at d 191 p (rr_name r) k /\
    u16_at d k (rtype_code (rr_type r)) /\ decodable c (rr_type r) /\
    u16_at d (k + 2) v /\ rclass_code (rr_class r) = v mod 32768 /\ rclass_plain (rr_class r) /\
    rr_flush r = top_bit c v /\
    u32_at d (k + 4) (rr_ttl r) /\
    u16_at d (k + 8) len /\
    e = (k + 10 + N.to_nat len)%nat /\ (e <= length d)%nat /\
    fst (rdata_from c (rr_type r) (mkbuf (firstn e d) (k + 10))) = Ok (rr_data r).

(** Entries one after the other, without gaps, from [p] up to [e]. *)
Inductive consecutive {X : Type} (entry : nat -> X -> nat -> Prop) : nat -> list X -> nat -> Prop :=
| no_entry p : consecutive entry p [] p
| one_more p x m xs e : entry p x m -> (p < m)%nat -> consecutive entry m xs e -> consecutive entry p (x :: xs) e.

(** The packet [p] stands at the beginning of the message and ends before [e]. *)
Definition packet_at (c : cfg) (d : bytes) (p : packet) (e : nat) : Prop :=
  (12 <= length d)%nat /\ byte_list (firstn 12 d) /\
  header_typed (p_header p) /\ view (p_header p) = fields_of (firstn 12 d) /\
  (N.of_nat (length (p_questions p)) = v_qd (fields_of d) /\ N.of_nat (length (p_answers p)) = v_an (fields_of d) /\
   N.of_nat (length (p_authorities p)) = v_ns (fields_of d) /\ N.of_nat (length (p_additionals p)) = v_ar (fields_of d)) /\
  exists e1 e2 e3,
    consecutive (question_at c d) 12 (p_questions p) e1 /\ consecutive (record_at c d) e1 (p_answers p) e2 /\
    consecutive (record_at c d) e2 (p_authorities p) e3 /\ consecutive (record_at c d) e3 (p_additionals p) e.
