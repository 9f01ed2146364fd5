(** * Facts about packets built by calls of the API and received. *)
From Coq Require Import Lia ZifyBool ZifyNat ZifyN.
From Verif Require Import Base Buffer Fqdn Header Types RData Packet BaseFacts FqdnFacts HeaderSpec HeaderFacts CompressSpec RDataReads RecordSpec ApiSpec PacketFacts PacketProps SendSpec.

Lemma uadd_bound c (a x : N) : uadd c M16 a 1 = Ok x -> x < 65536.
Proof.
  unfold uadd, M16. intros E. destruct (N.ltb_spec (a + 1) 65536) as [L|L]; [apply Ok_inj in E; lia|]. destruct (ovf c); [discriminate|]. apply Ok_inj in E. subst x. apply N.mod_lt. discriminate.
Qed.
Lemma len16_bound n : len16 n < 65536.
Proof. unfold len16, u16. apply N.mod_lt. discriminate. Qed.
Lemma run_typed Q R c k p p' : call_with Q R k -> header_typed (p_header p) -> run c k p = Ok p' -> header_typed (p_header p').
Proof.
  intros W T. destruct p as [[i f q a n d] qs an au ad]. cbn [p_header] in T. unfold header_typed in T. cbn [id hflags ques_count ans_count auth_count add_count] in T. destruct T as (T1 & T2 & T3 & T4 & T5 & T6).
  assert (B : forall m, len16 m < 65536) by apply len16_bound.
  destruct k as [y|ys| |s r|s rs|s|j|s|h|ys]; cbn [run call_with] in *; try destruct s as [| |].
  all: unfold add_question, add_answer, add_authority, add_additional, set_questions, set_answers, set_authorities, set_additionals, take_questions, take_answers, take_authorities, take_additionals, packet_set_id, packet_set_header, packet_questions_mut, with_header, with_counts in *;
    cbn [p_header id hflags ques_count ans_count auth_count add_count snd p_questions p_answers p_authorities p_additionals] in *; intros E.
  all: try (apply rbind_ok in E; destruct E as (x & U & E); apply uadd_bound in U).
  all: apply Ok_inj in E; subst p'; cbn [p_header].
  all: try (unfold packet_set_flag, with_header; cbn [p_header]; apply setter_typed).
  all: try exact W.
  all: unfold header_typed; cbn [id hflags ques_count ans_count auth_count add_count]; repeat split; try assumption; try apply B; try reflexivity.
Qed.
(** Equal apart from the counts. *)
Definition alike (v w : hview) : Prop := forall st, tallied v st = tallied w st.
Lemma alike_setter s v w : alike v w -> alike (apply_setter s v) (apply_setter s w).
Proof.
  intros A st. specialize (A st). destruct v, w. cbn [tallied] in A. injection A as -> -> -> -> -> -> -> -> ->.
  destruct s as [b|b|b|o|[|]|r|b]; reflexivity.
Qed.
Lemma run_words c k p p' v : alike (view (p_header p)) v -> run c k p = Ok p' -> alike (view (p_header p')) (words k v).
Proof.
  intros A. destruct k as [y|ys| |s r|s rs|s|j|s|h|ys]; cbn [run words]; try destruct s as [| |].
  all: unfold add_question, add_answer, add_authority, add_additional, set_questions, set_answers, set_authorities, set_additionals, take_questions, take_answers, take_authorities, take_additionals, packet_set_id, packet_set_header, packet_questions_mut; cbv zeta; intros E.
  all: try (apply rbind_ok in E; destruct E as (x & U & E)).
  all: apply Ok_inj in E; subst p'; try exact A.
  all: try (unfold packet_set_flag, with_header; cbn [p_header]; rewrite view_setter; apply alike_setter; exact A).
  all: try (intros st; reflexivity).
  all: intros st; specialize (A st); destruct v; unfold view, tallied in *; cbn [snd with_header with_counts p_header id hflags query_response authoritative_answer truncation recursion_desired recursion_available] in *.
  all: injection A; intros; subst; reflexivity.
Qed.
Lemma create_words o : alike (view (p_header (create o))) (first_words o).
Proof. destruct o as [i [|]|i| |i [|] qs]; intros st; reflexivity. Qed.
Lemma create_sections o : same_sections (sections_of (create o)) (first_sections o).
Proof. destruct o; split; try reflexivity; intros []; reflexivity. Qed.
Lemma create_typed Q o : origin_with Q o -> header_typed (p_header (create o)).
Proof. destruct o as [i [|]|i| |i [|] qs]; cbn [origin_with]; intros H; unfold header_typed; cbn [create p_header packet_new_query packet_new_reply packet_default packet_with_questions]; repeat split; try apply H; reflexivity. Qed.
Lemma history_words c ks : forall p p' v, alike (view (p_header p)) v -> history c ks p = Ok p' -> alike (view (p_header p')) (fold_left (fun v k => words k v) ks v).
Proof.
  induction ks as [|k ks IH]; intros p p' v A E; cbn [history fold_left] in *; [apply Ok_inj in E; subst; exact A|].
  apply rbind_ok in E. destruct E as (p1 & E1 & E). apply (IH p1); [|exact E]. eapply run_words; eassumption.
Qed.
Lemma history_typed Q R c ks : forall p p', Forall (call_with Q R) ks -> header_typed (p_header p) -> history c ks p = Ok p' -> header_typed (p_header p').
Proof.
  induction ks as [|k ks IH]; intros p p' W T E; cbn [history] in E; [apply Ok_inj in E; subst; exact T|].
  apply rbind_ok in E. destruct E as (p1 & E1 & E). inversion W; subst. eapply IH; [eassumption| |exact E]. eapply run_typed; eassumption.
Qed.
Definition entries (Q : question -> Prop) (R : rr -> Prop) (st : sections) : Prop := Forall Q (fst st) /\ forall s, Forall R (snd st s).
Lemma entries_same Q R a b : same_sections a b -> entries Q R b -> entries Q R a.
Proof. intros [E F] [A B]. split; [rewrite E; exact A|]. intros s. rewrite F. apply B. Qed.
Lemma entries_meaning Q R k st : call_with Q R k -> entries Q R st -> entries Q R (meaning k st).
Proof.
  destruct st as [qs f]. intros W [A B]. cbn [fst snd] in *. destruct k as [y|ys| |s r|s rs|s|j|s|h|ys]; cbn [meaning call_with] in *; (split; cbn [fst snd]); auto.
  - apply Forall_app. split; [exact A|]. repeat constructor. exact W.
  - intros s'. unfold update. destruct (same_section s s') eqn:E; [|apply B]. apply Forall_app. split; [apply B|]. repeat constructor. exact W.
  - intros s'. unfold update. destruct (same_section s s'); [exact W|apply B].
  - intros s'. unfold update. destruct (same_section s s'); [constructor|apply B].
Qed.
Lemma built_entries Q R o ks : origin_with Q o -> Forall (call_with Q R) ks -> entries Q R (built_sections o ks).
Proof.
  unfold built_sections. intros O W. assert (A : entries Q R (first_sections o)).
  { destruct o; split; try constructor; cbn in *; try apply O. }
  revert A. generalize (first_sections o). induction ks as [|k ks IH]; intros st A; cbn [fold_left]; [exact A|]. inversion W; subst. apply IH; [assumption|]. apply entries_meaning; assumption.
Qed.
Lemma history_built c o ks p : history c ks (create o) = Ok p -> same_sections (sections_of p) (built_sections o ks).
Proof. intros E. eapply same_sections_trans; [apply (history_meaning c), E|]. apply fold_meaning_same, create_sections. Qed.
Lemma entries_packet Q R p : entries Q R (sections_of p) -> Forall Q (p_questions p) /\ Forall R (records_of p).
Proof. intros [A B]. split; [exact A|]. unfold records_of. repeat (apply Forall_app; split); [apply (B Answers)|apply (B Authorities)|apply (B Additionals)]. Qed.
Lemma received_recount c o ks p : history c ks (create o) = Ok p -> received (recount p) o ks.
Proof.
  intros E. pose proof (history_built c o ks p E) as S. split; [exact S|].
  pose proof (history_words c ks (create o) p (first_words o) (create_words o) E) as A. fold (built_words o ks) in A. rewrite <- (A (built_sections o ks)).
  destruct S as [S1 S2]. unfold tallied, view, recount. cbn [p_header id hflags ques_count ans_count auth_count add_count query_response authoritative_answer truncation recursion_desired recursion_available].
  rewrite <- S1, <- !S2. reflexivity.
Qed.
Lemma sent_plain c o ks p : origin_with (question_ok c) o -> Forall (call_with (question_ok c) (rr_plain_ok c)) ks -> history c ks (create o) = Ok p -> fits_counts (built_sections o ks) ->
  exists bs p', packet_to_bytes c p = Ok bs /\ packet_try_from c bs = Ok p' /\ received p' o ks.
Proof.
  intros O W E F. pose proof (history_built c o ks p E) as S. destruct (entries_packet _ _ p (entries_same _ _ _ _ S (built_entries _ _ o ks O W))) as [A B].
  pose proof (history_typed _ _ c ks _ _ W (create_typed _ o O) E) as T.
  destruct (packet_roundtrip c p) as (bs & E1 & E2).
  - split; [exact T|]. split; assumption.
  - destruct S as [S1 S2], F as [F1 F2]. unfold small_sections. rewrite <- S1 in F1. split; [exact F1|]. pose proof (F2 Answers) as X1. pose proof (F2 Authorities) as X2. pose proof (F2 Additionals) as X3. rewrite <- S2 in X1, X2, X3. auto.
  - exists bs, (recount p). split; [exact E1|]. specialize (E2 []). rewrite app_nil_r in E2. split; [exact E2|]. apply (received_recount c), E.
Qed.
Lemma sent_compressed c h o ks : starts_counted o -> Forall keeps_counts ks -> always_fits ks (first_sections o) -> origin_with (question_ok c) o -> Forall (call_with (question_ok c) (rr_ok c)) ks ->
  exists p, history c ks (create o) = Ok p /\ received p o ks /\
    forall bs, hash_separates h (packet_names p) -> packet_to_bytes_compressed c h p = Ok bs -> N.of_nat (length bs) <= 16384 -> packet_try_from c bs = Ok p.
Proof.
  intros S K F O W. destruct (history_total c ks (create o) K (create_counts o S)) as (p & E & C).
  { revert F. generalize (create_sections o). generalize (sections_of (create o)) (first_sections o). clear. induction ks as [|k ks IH]; intros a b S; cbn [always_fits]; intros [[F1 F2] G].
    - split; [|exact I]. destruct S as [S1 S2]. split; [rewrite S1; exact F1|]. intros s. rewrite S2. apply F2.
    - split; [|apply (IH _ (meaning k b)); [apply meaning_same, S|exact G]]. destruct S as [S1 S2]. split; [rewrite S1; exact F1|]. intros s. rewrite S2. apply F2. }
  exists p. split; [exact E|]. pose proof (history_built c o ks p E) as Sp. destruct (entries_packet _ _ p (entries_same _ _ _ _ Sp (built_entries _ _ o ks O W))) as [A B].
  pose proof (history_typed _ _ c ks _ _ W (create_typed _ o O) E) as T. split.
  - replace p with (recount p) at 1; [apply (received_recount c), E|]. destruct p as [[i f q a n d] qs an au ad]. unfold counts_of, true_counts in C. cbn in C. injection C as -> -> -> ->. reflexivity.
  - intros bs HS E1 L. pose proof (packet_compressed c h p bs) as X. specialize (X ltac:(split; [exact T|split; assumption]) C HS E1 L []). rewrite app_nil_r in X. exact X.
Qed.
