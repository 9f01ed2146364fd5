(** * Specification: exactly which record data, records and messages make parsing panic or never end.

    As [FailSpec], but for record data too everything is said about the raw octets, with the pieces of
    [ReadSpec]; no parser of the model occurs. *)
From Verif Require Import Base Fqdn Header Types RDataBasic Bitmap Svcb RDataSec RData Packet BaseFacts NameSpec CodeSpec HeaderSpec WireSpec
  FailSpec FieldSpec ReadSpec.

(** Some value, read from such a piece. *)
Definition some {A} (R : A -> piece) : piece := fun p e => exists a, R a p e.
(** Behind these pieces, [bad] holds. *)
Definition behind (ps : list piece) (bad : nat -> Prop) (p : nat) : Prop := exists m, laid ps p m /\ bad m.

Section Stops.
  (** [w]: the message cut at the end of the record. *)
  Context (f : failure) (c : cfg) (w : bytes).
  Definition number (k : nat) : piece := some (num w k).
  (** The number of some value of an enumeration. *)
  Definition coded {X} (k : nat) (code : X -> N) : piece := some (fun x => num w k (code x)).
  Definition a_name : piece := some (name w).
  Definition a_string : piece := some (str w).
  Definition skipped (n : nat) : piece := fun p e => e = (p + n)%nat /\ (e <= length w)%nat.

  (** With overflow checks: windows of known types, then one that marks a number of more than sixteen
      bits and below that only known types. *)
  Definition bitmap_stops (p : nat) : Prop := f = Panics /\ ovf c = true /\ exists ws k x e,
    consecutive (window_at w) p ws k /\ window_at w k x e /\ (forall n, marked ws n -> exists t, bit_means c n t) /\
    (exists n, marked [x] n /\ 65536 <= n) /\ (forall n, marked [x] n -> n < 65536 -> exists t, bit_means c n t).
  (** The elements from [p] on do not end where [len] octets end. *)
  Definition overruns {X} (element : nat -> X -> nat -> Prop) (p : nat) (len : N) : Prop := exists xs m x e,
    consecutive element p xs m /\ (m < p + N.to_nat len)%nat /\ element m x e /\ (p + N.to_nat len < e)%nat.
  (** With overflow checks: parameters, then a list of keys (0) or of protocols (1) that overruns its length. *)
  Definition params_stop (p : nat) : Prop := f = Panics /\ ovf c = true /\ exists ps k len,
    consecutive (param_at w) p ps k /\ u16_at w (k + 2) len /\
    (u16_at w k 0 /\ overruns (key_at w) (k + 4) len \/ u16_at w k 1 /\ overruns (string_at w) (k + 4) len).

  (** Names up to the end, one of them bad. *)
  Definition names_stop (p : nat) : Prop := exists fs k, consecutive (name_at w 191) p fs k /\ (k < length w)%nat /\ bad_name f w k.

  Definition data_stops (t : rtype) : nat -> Prop :=
    match t with
    | NS | CNAME | PTR | TKEY | TSIG => bad_name f w
    | SOA | MINFO => fun p => bad_name f w p \/ behind [a_name] (bad_name f w) p
    | MX => behind [number 2] (bad_name f w)
    | SRV => behind [number 2; number 2; number 2] (bad_name f w)
    | NAPTR => behind [number 2; number 2; a_string; a_string; some (text_str w)] (bad_name f w)
    | IPSECKEY => behind [number 1; num w 1 3; coded 1 alg_code] (bad_name f w)
    | RRSIG => behind [some (fun t p e => decodable c t /\ num w 2 (rtype_code t) p e); coded 1 salg_code; number 1; number 4; number 4; number 4; number 2]
                 (bad_name f w)
    | HIP => fun p => exists i j, behind [num w 1 i; coded 1 alg_code; num w 2 j; skipped (N.to_nat i); skipped (N.to_nat j)] names_stop p
    | NSEC => fun p => bad_name f w p \/ behind [a_name] bitmap_stops p
    | CSYNC => behind [number 4; num_such w 2 (fun v => v < 4)] bitmap_stops
    | SVCB => fun p => behind [number 2] (bad_name f w) p \/ behind [number 2; a_name] params_stop p
    | _ => fun _ => False
    end.
End Stops.

(** At [p], where a record is expected (compare [record_fails]). *)
Definition record_stops (f : failure) (c : cfg) (d : bytes) (p : nat) : Prop :=
  bad_name f d p \/
  exists nm k t len e, name_at d 191 p nm k /\ u16_at d k (rtype_code t) /\ decodable c t /\
    u16_at d (k + 8) len /\ e = (k + 10 + N.to_nat len)%nat /\ (e <= length d)%nat /\ data_stops f c (firstn e d) t (k + 10).
(** The entries of the four sections are there one after the other, as the counts in the header say, up
    to one that stops the parser. *)
Definition message_stops (f : failure) (c : cfg) (d : bytes) : Prop :=
  (12 <= length d)%nat /\
  (section_fails (question_at c d) (bad_name f d) (v_qd (fields_of d)) 12 \/
   exists e1, section_reads (question_at c d) (v_qd (fields_of d)) 12 e1 /\
   (section_fails (record_on_wire c d) (record_stops f c d) (v_an (fields_of d)) e1 \/
    exists e2, section_reads (record_on_wire c d) (v_an (fields_of d)) e1 e2 /\
    (section_fails (record_on_wire c d) (record_stops f c d) (v_ns (fields_of d)) e2 \/
     exists e3, section_reads (record_on_wire c d) (v_ns (fields_of d)) e2 e3 /\
       section_fails (record_on_wire c d) (record_stops f c d) (v_ar (fields_of d)) e3))).
