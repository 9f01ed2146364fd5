(** * Facts about received packets that are changed by calls of the API and sent on. *)
From Coq Require Import Lia ZifyBool ZifyNat ZifyN.
From Verif Require Import Base Buffer Fqdn Header Types RDataBasic Svcb RDataSec RData Packet BaseFacts FqdnFacts HeaderSpec HeaderFacts CompressSpec RDataSpec RDataReads RDataFacts SvcbParse RecordSpec ApiSpec PacketFacts PacketProps SendSpec RelaySpec SendFacts.

Lemma relayed_recount c p ks p' : history c ks p = Ok p' -> relayed (recount p') p ks.
Proof.
  intros E. pose proof (history_meaning c ks p p' E) as S. split; [exact S|].
  pose proof (history_words c ks p p' (view (p_header p)) (fun st => eq_refl) E) as A. fold (changed_words p ks) in A. fold (changed_sections p ks) in S. rewrite <- (A (changed_sections p ks)).
  destruct S as [S1 S2]. unfold tallied, view, recount. cbn [p_header id hflags ques_count ans_count auth_count add_count query_response authoritative_answer truncation recursion_desired recursion_available].
  rewrite <- S1, <- !S2. reflexivity.
Qed.
Lemma changed_entries Q R p ks : entries Q R (sections_of p) -> Forall (call_with Q R) ks -> entries Q R (changed_sections p ks).
Proof.
  unfold changed_sections. intros A W. revert A. generalize (sections_of p). induction ks as [|k ks IH]; intros st A; cbn [fold_left]; [exact A|]. inversion W; subst. apply IH; [assumption|]. apply entries_meaning; assumption.
Qed.
Lemma packet_entries Q R p : Forall Q (p_questions p) -> Forall R (records_of p) -> entries Q R (sections_of p).
Proof.
  intros A B. apply records_forall in B. destruct B as (Ba & Bn & Bd). split; [exact A|]. intros []; assumption.
Qed.
Lemma ok_parsed c r : rr_ok c r -> parsed_record c r.
Proof. intros (H & T & F). split; [exact H|]. split; [exact T|]. split; [apply rdata_fits_writable, F|]. intros _. exact F. Qed.
Lemma known_parsed c r : known_record c r -> parsed_record c r.
Proof.
  intros [O|(d & p & r0 & B & A & E & H & T & X)]; [apply ok_parsed, O|]. destruct (packet_parsed_records c d p B A E) as (_ & _ & _ & P). rewrite Forall_forall in P.
  destruct (P r0 H) as ((H1 & H2 & H3 & H4 & H5 & H6) & P2). rewrite X. split; [|exact P2]. split; [exact H1|]. split; [exact H2|]. split; [exact H3|]. split; [exact H4|]. split; [exact T|exact H6].
Qed.
Lemma known_asked c q : known_question c q -> question_ok c q.
Proof.
  intros [O|(d & p & B & A & E & H)]; [exact O|]. destruct (packet_parsed_records c d p B A E) as (_ & _ & Q & _). rewrite Forall_forall in Q. apply Q, H.
Qed.
Lemma calls_weaken (Q Q' : question -> Prop) (R R' : rr -> Prop) k : (forall q, Q q -> Q' q) -> (forall r, R r -> R' r) -> call_with Q R k -> call_with Q' R' k.
Proof. intros I J. destruct k; cbn [call_with]; auto; intros F; (eapply Forall_impl; [|exact F]); assumption. Qed.
Section Relay.
  Context (c : cfg) (d : bytes) (p : packet) (ks : list call) (p' : packet).
  Context (B : byte_list d) (A : allocatable d) (E : packet_try_from c d = Ok p) (W : Forall (call_with (known_question c) (known_record c)) ks) (H : history c ks p = Ok p').
  Lemma relay_typed : header_typed (p_header p').
  Proof. destruct (packet_parsed_records c d p B A E) as (T & _). eapply history_typed; eassumption. Qed.
  Lemma relay_entries : Forall (question_ok c) (p_questions p') /\ Forall (parsed_record c) (records_of p').
  Proof.
    destruct (packet_parsed_records c d p B A E) as (_ & _ & Q & P). apply entries_packet. eapply entries_same; [apply (history_meaning c), H|].
    apply changed_entries; [apply packet_entries; assumption|]. eapply Forall_impl; [|exact W]. intros k. apply calls_weaken; [apply known_asked|apply known_parsed].
  Qed.
  Lemma relay_plain : fits_counts (changed_sections p ks) ->
    Forall (fun r => keeps_data (rr_data r) /\ size_exact (rr_data r) /\ forall bs, rdata_to_bytes c (rr_data r) = Ok bs -> N.of_nat (length bs) <= 65535) (records_of p') ->
    exists bs p'', packet_to_bytes c p' = Ok bs /\ packet_try_from c bs = Ok p'' /\ relayed p'' p ks.
  Proof.
    intros F K. destruct relay_entries as [Q P]. destruct (packet_roundtrip c p') as (bs & E1 & E2).
    - split; [exact relay_typed|]. split; [exact Q|]. apply Forall_forall. intros r Hr. rewrite Forall_forall in P, K. destruct (P r Hr) as (Hh & T & _ & Ft), (K r Hr) as (K1 & K2 & K3).
      split; [split; [exact Hh|split; [exact T|apply Ft, K1]]|]. split; assumption.
    - pose proof (history_meaning c ks p p' H) as [S1 S2]. fold (changed_sections p ks) in S1, S2. destruct F as [F1 F2]. unfold small_sections. rewrite <- S1 in F1. split; [exact F1|].
      pose proof (F2 Answers) as X1. pose proof (F2 Authorities) as X2. pose proof (F2 Additionals) as X3. rewrite <- S2 in X1, X2, X3. auto.
    - exists bs, (recount p'). split; [exact E1|]. specialize (E2 []). rewrite app_nil_r in E2. split; [exact E2|]. apply (relayed_recount c), H.
  Qed.
  Lemma relay_compressed h : counts_of p' = true_counts p' -> hash_separates h (packet_names p') ->
    exists bs, packet_to_bytes_compressed c h p' = Ok bs /\
      (Forall (fun r => keeps_data (rr_data r)) (records_of p') -> N.of_nat (length bs) <= 16384 -> packet_try_from c bs = Ok p').
  Proof.
    intros C HS. destruct relay_entries as [Q P]. destruct (packet_compressed_cases c h p') as [[_ [bs Eb]]|[X _]].
    - eapply Forall_impl; [|exact P]. intros r (_ & T & _). exact T.
    - exists bs. split; [exact Eb|]. intros K L. pose proof (packet_compressed c h p' bs) as X. rewrite <- (app_nil_r bs) at 1. apply X; try assumption.
      split; [exact relay_typed|]. split; [exact Q|]. apply Forall_forall. intros r Hr. rewrite Forall_forall in P, K. destruct (P r Hr) as (Hh & T & _ & Ft). split; [exact Hh|]. split; [exact T|]. apply Ft, K, Hr.
    - exfalso. apply X. eapply Forall_impl; [|exact P]. intros r (_ & _ & T & _). exact T.
  Qed.
End Relay.
Lemma parsed_modulo c d p : byte_list d -> allocatable d -> packet_try_from c d = Ok p -> counts_modulo p.
Proof.
  intros B A E. destruct (packet_parsed_records c d p B A E) as (T & K & _). unfold counts_modulo. destruct p as [[i f q a n e] qs an au ad]. unfold counts_of, true_counts, header_typed in *. cbn in *. injection K as -> -> -> ->.
  rewrite !N.mod_small by apply T. reflexivity.
Qed.
Lemma relay_history c d p ks : byte_list d -> allocatable d -> packet_try_from c d = Ok p -> Forall keeps_counts ks -> always_fits ks (sections_of p) ->
  exists p', history c ks p = Ok p' /\ counts_of p' = true_counts p' /\ relayed p' p ks.
Proof.
  intros B A E K F. destruct (history_total c ks p K (parsed_modulo c d p B A E) F) as (p' & H & C). exists p'. split; [exact H|]. split; [exact C|].
  rewrite <- (recount_same p' C). apply (relayed_recount c), H.
Qed.
