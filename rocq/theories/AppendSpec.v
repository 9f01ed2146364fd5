(** * Specification: a record put behind a finished message.

    Servers and forwarders add an OPT or a signature to a message without taking it apart: the octets of the
    record go behind the message and the counter of the section goes up by one (RFC 8945, 5.1). *)
From Verif Require Import Base Buffer Fqdn Header Packet PatchSpec.

(** Where the counter of a section is (RFC 1035, 4.1.1). *)
Definition count_at (s : section) : nat := match s with Answers => 6 | Authorities => 8 | Additionals => 10 end%nat.
(** The section is the last one that has records. *)
Definition is_last (s : section) (p : packet) : Prop :=
  match s with Answers => p_authorities p = [] /\ p_additionals p = [] | Authorities => p_additionals p = [] | Additionals => True end.
(** The call that adds a record to a section. *)
Definition add_to (c : cfg) (s : section) (p : packet) (r : rr) : res packet :=
  match s with Answers => add_answer c p r | Authorities => add_authority c p r | Additionals => add_additional c p r end.
(** The call that gives a section its records. *)
Definition set_to (s : section) (p : packet) (rs : list rr) : packet :=
  match s with Answers => set_answers p rs | Authorities => set_authorities p rs | Additionals => set_additionals p rs end.
(** What the header says about the number of records. *)
Definition counter (s : section) (p : packet) : N :=
  match s with Answers => ans_count (p_header p) | Authorities => auth_count (p_header p) | Additionals => add_count (p_header p) end.
