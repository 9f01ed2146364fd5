(** * Specification: packets built by calls of the API, and what the other side receives.

    The words of the header (everything but the four counts) and the sections, as the calls set them. *)
From Verif Require Import Base Buffer Fqdn Header Types RData Packet HeaderSpec RecordSpec ApiSpec.

(** The header a packet begins with: a query or a reply with opcode 0 and no other flag. *)
Definition first_words (o : origin) : hview :=
  match o with
  | NewQuery i rd | WithQuestions i rd _ => mkview i false 0 false false rd false 0 0 0 0 0 0
  | NewReply i => mkview i true 0 false false false false 0 0 0 0 0 0
  | Default => mkview 0 false 0 false false false false 0 0 0 0 0 0
  end.
Definition first_sections (o : origin) : sections := (match o with WithQuestions _ _ qs => qs | _ => [] end, fun _ => []).
(** What a call does to the words. *)
Definition words (k : call) (v : hview) : hview :=
  match k with
  | SetId i => let '(mkview _ qr op aa tc rd ra z rc qd an ns ar) := v in mkview i qr op aa tc rd ra z rc qd an ns ar
  | SetFlag s => apply_setter s v
  | SetHeader h => view h
  | _ => v
  end.
(** The same words, with the counts of these sections. *)
Definition tallied (v : hview) (st : sections) : hview :=
  let '(mkview i qr op aa tc rd ra z rc _ _ _ _) := v in
  let n (s : section) := N.of_nat (length (snd st s)) in
  mkview i qr op aa tc rd ra z rc (N.of_nat (length (fst st))) (n Answers) (n Authorities) (n Additionals).
(** What has been built after all calls. *)
Definition built_sections (o : origin) (ks : list call) : sections := fold_left (fun st k => meaning k st) ks (first_sections o).
Definition built_words (o : origin) (ks : list call) : hview := fold_left (fun v k => words k v) ks (first_words o).
(** The packet received: these sections, these words, and the counts that belong to them. *)
Definition received (p : packet) (o : origin) (ks : list call) : Prop :=
  same_sections (sections_of p) (built_sections o ks) /\ view (p_header p) = tallied (built_words o ks) (built_sections o ks).

(** Arguments that satisfy [Q] and [R], numbers that fit their types. *)
Definition origin_with (Q : question -> Prop) (o : origin) : Prop :=
  match o with
  | NewQuery i _ | NewReply i => i < 65536
  | Default => True
  | WithQuestions i _ qs => i < 65536 /\ Forall Q qs
  end.
Definition call_with (Q : question -> Prop) (R : rr -> Prop) (k : call) : Prop :=
  match k with
  | AddQuestion q => Q q
  | SetQuestions qs | QuestionsMut qs => Forall Q qs
  | AddRecord _ r => R r
  | SetRecords _ rs => Forall R rs
  | SetId i => i < 65536
  | SetHeader h => header_typed h
  | _ => True
  end.
(** The text of a name: the labels with dots between them. *)
Fixpoint text_of (ls : list bytes) : bytes :=
  match ls with
  | [] => []
  | [l] => l
  | l :: ls' => l ++ [46] ++ text_of ls'
  end.
