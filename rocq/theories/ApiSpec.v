(** * Specification: the calls of the [Packet] API and what they mean for the four sections. *)
From Verif Require Import Base Buffer Fqdn Header Types RData Packet HeaderSpec RecordSpec.

Inductive section := Answers | Authorities | Additionals.

(** How a packet comes into being. *)
Inductive origin :=
| NewQuery (i : N) (rd : bool) | NewReply (i : N) | Default
| WithQuestions (i : N) (rd : bool) (qs : list question).
Definition create (o : origin) : packet :=
  match o with
  | NewQuery i rd => packet_new_query i rd
  | NewReply i => packet_new_reply i
  | Default => packet_default
  | WithQuestions i rd qs => packet_with_questions i rd qs
  end.

(** What can be done to it. *)
Inductive call :=
| AddQuestion (q : question) | SetQuestions (qs : list question) | TakeQuestions
| AddRecord (s : section) (r : rr) | SetRecords (s : section) (rs : list rr) | TakeRecords (s : section)
| SetId (i : N) | SetFlag (s : setter)
| SetHeader (h : header) | QuestionsMut (qs : list question).
Definition run (c : cfg) (k : call) (p : packet) : res packet :=
  match k with
  | AddQuestion q => add_question c p q
  | SetQuestions qs => Ok (set_questions p qs)
  | TakeQuestions => Ok (snd (take_questions p))
  | AddRecord Answers r => add_answer c p r
  | AddRecord Authorities r => add_authority c p r
  | AddRecord Additionals r => add_additional c p r
  | SetRecords Answers rs => Ok (set_answers p rs)
  | SetRecords Authorities rs => Ok (set_authorities p rs)
  | SetRecords Additionals rs => Ok (set_additionals p rs)
  | TakeRecords Answers => Ok (snd (take_answers p))
  | TakeRecords Authorities => Ok (snd (take_authorities p))
  | TakeRecords Additionals => Ok (snd (take_additionals p))
  | SetId i => Ok (packet_set_id p i)
  | SetFlag s => Ok (packet_set_flag (call_setter s) p)
  | SetHeader h => Ok (packet_set_header p h)
  | QuestionsMut qs => Ok (packet_questions_mut p qs)
  end.
Fixpoint history (c : cfg) (ks : list call) (p : packet) : res packet :=
  match ks with
  | [] => Ok p
  | k :: ks' => let! p' := run c k p in history c ks' p'
  end.

(** The sections alone, without any header. *)
Definition sections : Type := list question * (section -> list rr).
Definition sections_of (p : packet) : sections :=
  (p_questions p, fun s => match s with Answers => p_answers p | Authorities => p_authorities p
                                      | Additionals => p_additionals p end).
Definition same_section (a b : section) : bool :=
  match a, b with
  | Answers, Answers | Authorities, Authorities | Additionals, Additionals => true
  | _, _ => false
  end.
Definition update (f : section -> list rr) (s : section) (rs : list rr) : section -> list rr :=
  fun s' => if same_section s s' then rs else f s'.
Definition meaning (k : call) (st : sections) : sections :=
  let '(qs, f) := st in
  match k with
  | AddQuestion q => (qs ++ [q], f)
  | SetQuestions qs' | QuestionsMut qs' => (qs', f)
  | TakeQuestions => ([], f)
  | AddRecord s r => (qs, update f s (f s ++ [r]))
  | SetRecords s rs => (qs, update f s rs)
  | TakeRecords s => (qs, update f s [])
  | SetId _ | SetFlag _ | SetHeader _ => (qs, f)
  end.
Definition same_sections (a b : sections) : Prop := fst a = fst b /\ forall s, snd a s = snd b s.

(** No section longer than a count can say, now and after each call. *)
Definition fits_counts (st : sections) : Prop :=
  N.of_nat (length (fst st)) <= 65535 /\ forall s, N.of_nat (length (snd st s)) <= 65535.
Fixpoint always_fits (ks : list call) (st : sections) : Prop :=
  fits_counts st /\ match ks with [] => True | k :: ks' => always_fits ks' (meaning k st) end.

(** Calls that maintain the counts, given correct ones. *)
Definition keeps_counts (k : call) : Prop :=
  match k with
  | SetHeader _ | QuestionsMut _ | TakeRecords Authorities => False
  | _ => True
  end.
Definition starts_counted (o : origin) : Prop :=
  match o with WithQuestions _ _ (_ :: _) => False | _ => True end.
(** Counts equal to the section lengths, modulo 65536. *)
Definition counts_modulo (p : packet) : Prop :=
  let '(q, a, n, d) := true_counts p in
  counts_of p = (q mod 65536, a mod 65536, n mod 65536, d mod 65536).
