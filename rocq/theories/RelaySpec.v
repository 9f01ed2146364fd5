(** * Specification: received packets that are changed by calls of the API and sent on. *)
From Verif Require Import Base Buffer Fqdn Header Types RDataBasic RData Packet HeaderSpec RecordSpec ApiSpec SendSpec BaseFacts Api.

(** What the calls make of a packet, and a packet that is exactly this, with the counts that belong to it. *)
Definition changed_sections (p : packet) (ks : list call) : sections := fold_left (fun st k => meaning k st) ks (sections_of p).
Definition changed_words (p : packet) (ks : list call) : hview := fold_left (fun v k => words k v) ks (view (p_header p)).
Definition relayed (p' p : packet) (ks : list call) : Prop :=
  same_sections (sections_of p') (changed_sections p ks) /\ view (p_header p') = tallied (changed_words p ks) (changed_sections p ks).

(** Entries of messages received, here or elsewhere, with whatever time to live. *)
Definition seen_record (c : cfg) (r : rr) : Prop :=
  exists (d : bytes) (p : packet) (r0 : rr), byte_list d /\ N.of_nat (length d) <= 9223372036854775807 /\ packet_try_from c d = Ok p /\ In r0 (records_of p) /\ rr_ttl r < 4294967296 /\
    r = rr_set_ttl r0 (rr_ttl r).
Definition seen_question (c : cfg) (q : question) : Prop :=
  exists (d : bytes) (p : packet), byte_list d /\ N.of_nat (length d) <= 9223372036854775807 /\ packet_try_from c d = Ok p /\ In q (p_questions p).
(** Entries for the calls: well-formed ones (C28), and those of messages. *)
Definition known_record (c : cfg) (r : rr) : Prop := rr_ok c r \/ seen_record c r.
Definition known_question (c : cfg) (q : question) : Prop := question_ok c q \/ seen_question c q.

(** An answer made of a received query: the response flag, the answers, and no other records. *)
Definition answering (rs : list rr) : list call :=
  [SetFlag (SetQueryResponse true); SetRecords Answers rs; SetRecords Authorities []; TakeRecords Additionals].
(** The header of this answer: that of the query, with the flag and the counts of what is there. *)
Definition answer_view (v : hview) (questions answers : N) : hview :=
  mkview (v_id v) true (v_opcode v) (v_aa v) (v_tc v) (v_rd v) (v_ra v) (v_z v) (v_rcode v) questions answers 0 0.
