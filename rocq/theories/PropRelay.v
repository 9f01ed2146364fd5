(** * C108: received packets that are changed by calls of the API and sent on. *)
From Coq Require Import Lia ZifyBool ZifyNat ZifyN.
From Verif Require Import Base Buffer Fqdn Header Types RDataBasic Svcb RDataSec RData Packet BaseFacts FqdnFacts HeaderSpec HeaderFacts CodeSpec CompressSpec ChunkFacts RDataSpec RDataReads RDataFacts SvcbParse RecordSpec ApiSpec PacketFacts PacketProps SendSpec RelaySpec SendFacts RelayFacts PropName PropRecord PropPacket PropWire PropEdns.

(** Plain form: any message received, any calls whatever, with entries that are well-formed or come from messages received.  Nothing is asked of the records of the message that the calls have removed; of those still there, that they are of no type
    that does not survive being written (C37). *)
Theorem C108_plain_partial : forall (c : cfg) (d : bytes) (p : packet) (ks : list call) (p' : packet),
  byte_list d -> N.of_nat (length d) <= 9223372036854775807 -> packet_try_from c d = Ok p ->
  Forall (call_with (known_question c) (known_record c)) ks -> history c ks p = Ok p' -> fits_counts (changed_sections p ks) ->
  Forall (fun r => match rr_data r with
                   | DSSHFP _ | DOPT _ | DRRSIG _ => False
                   | DCAA x => caa_tag x = []
                   | DSVCB x => sv_params x = []
                   | DTXT l => Forall (fun s => (length s <= 255)%nat) l
                   | _ => True
                   end /\ forall db, rdata_to_bytes c (rr_data r) = Ok db -> N.of_nat (length db) <= 65535) (records_of p') ->
  exists bs p'', packet_to_bytes c p' = Ok bs /\ packet_try_from c bs = Ok p'' /\ relayed p'' p ks.
Proof.
  intros c d p ks p' B A E W H F K. apply (relay_plain c d p ks p' B A E W H F). eapply Forall_impl; [|exact K]. intros r [X L]. cbv beta in *.
  destruct (rr_data r); cbn [keeps_data size_exact] in *; try (destruct X; fail); try (split; [exact I|split; [exact I|exact L]]).
  - split; [exact X|]. split; [exact I|exact L].
  - split; [exact I|]. split; [exact X|exact L].
  - rewrite X. split; [unfold short; cbn [length]; lia|]. split; [reflexivity|exact L].
Qed.
(** Compressed form: calls that keep the counts never fail on a received packet, what they make of it can always be written, and it arrives unless it has an SSHFP record
    or a text that became longer than 255 octets. *)
Theorem C108_compressed_partial : forall (c : cfg) (h : hasher) (d : bytes) (p : packet) (ks : list call),
  byte_list d -> N.of_nat (length d) <= 9223372036854775807 -> packet_try_from c d = Ok p ->
  Forall keeps_counts ks -> always_fits ks (sections_of p) -> Forall (call_with (known_question c) (known_record c)) ks ->
  exists p', history c ks p = Ok p' /\ relayed p' p ks /\
    (hash_separates h (packet_names p') ->
     exists bs, packet_to_bytes_compressed c h p' = Ok bs /\
       (N.of_nat (length bs) <= 16384 ->
        Forall (fun r => match rr_data r with
                         | DSSHFP _ => False
                         | DTXT l => Forall (fun s => (length s <= 255)%nat) l
                         | DCAA x => (length (caa_tag x) <= 255)%nat
                         | _ => True
                         end) (records_of p') ->
        packet_try_from c bs = Ok p')).
Proof.
  intros c h d p ks B A E K F W. destruct (relay_history c d p ks B A E K F) as (p' & H & C & R). exists p'. split; [exact H|]. split; [exact R|]. intros HS.
  destruct (relay_compressed c d p ks p' B A E W H h C HS) as (bs & Eb & X). exists bs. split; [exact Eb|]. intros L G. apply X; [|exact L]. eapply Forall_impl; [|exact G]. intros r. cbv beta. destruct (rr_data r); auto.
Qed.
(** Every message received, whatever is in it, can be answered: the querier gets its own id, questions and flags, and the answers. *)
Lemma answering_keeps rs : Forall keeps_counts (answering rs).
Proof. repeat constructor. Qed.
Lemma parsed_fits c d p : byte_list d -> allocatable d -> packet_try_from c d = Ok p -> fits_counts (sections_of p).
Proof.
  intros B A E. destruct (packet_parsed_records c d p B A E) as (T & K & _). destruct p as [[i f q a n e] qs an au ad]. unfold counts_of, true_counts, header_typed in *. cbn in *. injection K as -> -> -> ->.
  split; cbn [sections_of p_questions fst snd]; [lia|]. intros []; cbn [p_answers p_authorities p_additionals]; lia.
Qed.
Lemma answering_fits rs st : fits_counts st -> N.of_nat (length rs) <= 65535 -> always_fits (answering rs) st.
Proof.
  destruct st as [qs f]. intros [F1 F2] L. cbn [fst snd] in *. pose proof (F2 Answers) as A1. pose proof (F2 Authorities) as A2. pose proof (F2 Additionals) as A3.
  cbn [always_fits answering meaning]. unfold fits_counts. cbn [fst snd]. repeat split; try exact F1; intros []; unfold update; cbn [same_section]; try assumption; cbn [length]; lia.
Qed.
Lemma answering_calls Q R rs : Forall R rs -> Forall (call_with Q R) (answering rs).
Proof. intros F. constructor; [exact I|]. constructor; [exact F|]. constructor; [constructor|]. constructor; [exact I|constructor]. Qed.
Lemma answered p'' p rs : relayed p'' p (answering rs) -> p_questions p'' = p_questions p /\ p_answers p'' = rs /\ p_authorities p'' = [] /\ p_additionals p'' = [] /\
  view (p_header p'') = answer_view (view (p_header p)) (N.of_nat (length (p_questions p))) (N.of_nat (length rs)).
Proof. intros [[S1 S2] V]. split; [exact S1|]. split; [exact (S2 Answers)|]. split; [exact (S2 Authorities)|]. split; [exact (S2 Additionals)|]. rewrite V. reflexivity. Qed.
Theorem C108_answered : forall (c : cfg) (d : bytes) (p : packet) (rs : list rr),
  byte_list d -> N.of_nat (length d) <= 9223372036854775807 -> packet_try_from c d = Ok p -> Forall (rr_plain_ok c) rs -> N.of_nat (length rs) <= 65535 ->
  exists p' bs p'', history c (answering rs) p = Ok p' /\ packet_to_bytes c p' = Ok bs /\ packet_try_from c bs = Ok p'' /\
    p_questions p'' = p_questions p /\ p_answers p'' = rs /\ p_authorities p'' = [] /\ p_additionals p'' = [] /\
    view (p_header p'') = answer_view (view (p_header p)) (N.of_nat (length (p_questions p))) (N.of_nat (length rs)).
Proof.
  intros c d p rs B A E F L. assert (O : Forall (known_record c) rs) by (eapply Forall_impl; [|exact F]; intros r X; left; apply X).
  destruct (relay_history c d p _ B A E (answering_keeps rs) (answering_fits rs _ (parsed_fits c d p B A E) L)) as (p' & H & _ & R). exists p'.
  destruct (answered _ _ _ R) as (_ & A1 & A2 & A3 & _).
  destruct (relay_plain c d p _ p' B A E (answering_calls _ _ rs O) H) as (bs & p'' & E1 & E2 & R'').
  - destruct (parsed_fits c d p B A E) as [F1 _]. split; [exact F1|]. intros []; [exact L|discriminate..].
  - unfold records_of. rewrite A1, A2, A3, !app_nil_r. eapply Forall_impl; [|exact F]. intros r ((_ & _ & X) & S & W). split; [|split; assumption]. destruct (rr_data r); cbn [keeps_data rdata_fits] in *; auto. apply X.
  - exists bs, p''. repeat (split; [assumption|]). apply answered, R''.
Qed.
Theorem C108_answered_compressed : forall (c : cfg) (h : hasher) (d : bytes) (p : packet) (rs : list rr),
  byte_list d -> N.of_nat (length d) <= 9223372036854775807 -> packet_try_from c d = Ok p -> Forall (rr_ok c) rs -> N.of_nat (length rs) <= 65535 ->
  hash_separates h (map q_name (p_questions p) ++ flat_map rr_names rs) ->
  exists p' bs, history c (answering rs) p = Ok p' /\ packet_to_bytes_compressed c h p' = Ok bs /\ (N.of_nat (length bs) <= 16384 -> packet_try_from c bs = Ok p') /\
    p_questions p' = p_questions p /\ p_answers p' = rs /\ p_authorities p' = [] /\ p_additionals p' = [] /\
    view (p_header p') = answer_view (view (p_header p)) (N.of_nat (length (p_questions p))) (N.of_nat (length rs)).
Proof.
  intros c h d p rs B A E F L HS. assert (O : Forall (known_record c) rs) by (eapply Forall_impl; [|exact F]; intros r X; left; exact X).
  destruct (relay_history c d p _ B A E (answering_keeps rs) (answering_fits rs _ (parsed_fits c d p B A E) L)) as (p' & H & C & R). exists p'.
  pose proof (answered _ _ _ R) as Z. destruct Z as (Zq & A1 & A2 & A3 & _).
  destruct (relay_compressed c d p _ p' B A E (answering_calls _ _ rs O) H h C) as (bs & E1 & E2).
  - unfold packet_names, records_of. rewrite Zq, A1, A2, A3, !app_nil_r. exact HS.
  - exists bs. split; [exact H|]. split; [exact E1|]. split; [|apply answered, R]. apply E2. unfold records_of. rewrite A1, A2, A3, !app_nil_r.
    eapply Forall_impl; [|exact F]. intros r (_ & _ & X). destruct (rr_data r); cbn [keeps_data rdata_fits] in *; auto. apply X.
Qed.
(** False if the additional records of the query are left in place: a query with an OPT record that has no options, as nearly every resolver sends it, is turned into an answer, in
    plain form, that this library rejects. *)
Theorem C108_edns_refuted : forall (c : cfg) (d : bytes) (p p' : packet) (r : rr) (rs : list rr) (bs : bytes),
  byte_list d -> N.of_nat (length d) <= 9223372036854775807 -> packet_try_from c d = Ok p ->
  p_authorities p = [] -> p_additionals p = [r] -> rr_data r = DOPT [] ->
  Forall (rr_plain_ok c) rs -> N.of_nat (length rs) <= 65535 ->
  history c [SetFlag (SetQueryResponse true); SetRecords Answers rs] p = Ok p' -> packet_to_bytes c p' = Ok bs -> byte_list bs ->
  forall p'', packet_try_from c bs <> Ok p''.
Proof.
  intros c d p p' r rs bs B A E En Ed D F L H Eb Bb. assert (W : Forall (call_with (known_question c) (known_record c)) [SetFlag (SetQueryResponse true); SetRecords Answers rs]).
  { constructor; [exact I|]. constructor; [|constructor]. cbn [call_with]. eapply Forall_impl; [|exact F]. intros x X. left. apply X. }
  destruct (relay_entries c d p _ p' B A E W H) as [Q P]. pose proof (relay_typed c d p _ p' B A E W H) as T. pose proof (history_meaning c _ p p' H) as [S1 S2].
  destruct (parsed_fits c d p B A E) as [F1 _]. pose proof (S2 Answers) as G1. pose proof (S2 Authorities) as G2. pose proof (S2 Additionals) as G3.
  cbn [fold_left meaning sections_of fst snd] in S1, G1, G2, G3, F1. unfold update in G1, G2, G3. cbn [same_section] in G1, G2, G3. rewrite En in G2. rewrite Ed in G3.
  assert (X : records_of p' = rs ++ [r]) by (unfold records_of; rewrite G1, G2, G3; reflexivity).
  apply (opt_rejected c p' bs rs r Eb T); try assumption.
  - unfold small_sections. rewrite S1, G1, G2, G3. cbn [length]. repeat split; try assumption; lia.
  - rewrite X in P. apply Forall_app in P. destruct P as [_ P]. apply Forall_inv in P. apply P.
Qed.

(** A query with an OPT record, answered. *)
Definition asking : bytes := [0; 5; 1; 0; 0; 1; 0; 0; 0; 0; 0; 1] ++ [3; 119; 119; 119; 0; 0; 16; 0; 1] ++ edns_octets 1232 0 0 32768 [].
Definition asking_packet : packet := Eval vm_compute in match packet_try_from ex_cfg asking with Ok p => p | _ => ex_packet end.
Definition answer_rr : rr := mkRR ex_ftp A false CCH 60 (DA 16909060).
Lemma asking_read : byte_list asking /\ N.of_nat (length asking) <= 9223372036854775807 /\ packet_try_from ex_cfg asking = Ok asking_packet.
Proof. split; [vm_compute; repeat constructor|]. split; [vm_compute; discriminate|vm_compute; reflexivity]. Qed.
Lemma answer_ok : rr_plain_ok ex_cfg answer_rr.
Proof. pose proof ex_packet_plain as (_ & _ & P). rewrite Forall_forall in P. apply P. vm_compute. auto 10. Qed.
Example C108_ex_answered : p_questions asking_packet <> [] /\ Forall (rr_plain_ok ex_cfg) [answer_rr] /\ Forall (rr_ok ex_cfg) [answer_rr] /\
  hash_separates ex_hash (map q_name (p_questions asking_packet) ++ flat_map rr_names [answer_rr]).
Proof. split; [discriminate|]. split; [repeat constructor; apply answer_ok|]. split; [repeat constructor; apply answer_ok|]. apply separates_b_true. vm_compute. reflexivity. Qed.
Example C108_ex_edns : exists r p' bs, p_authorities asking_packet = [] /\ p_additionals asking_packet = [r] /\ rr_data r = DOPT [] /\
  history ex_cfg [SetFlag (SetQueryResponse true); SetRecords Answers [answer_rr]] asking_packet = Ok p' /\ packet_to_bytes ex_cfg p' = Ok bs /\ byte_list bs.
Proof. do 3 eexists. split; [reflexivity|]. split; [reflexivity|]. split; [reflexivity|]. split; [vm_compute; reflexivity|]. split; [vm_compute; reflexivity|]. repeat constructor. Qed.
(** A response passed on under another id, with one more answer and without its additional records. *)
Definition passing : list call := [SetId 7; AddRecord Answers answer_rr; TakeRecords Additionals; SetFlag (SetRecursionAvailable true)].
Example C108_ex_passed : byte_list ex_message /\ N.of_nat (length ex_message) <= 9223372036854775807 /\ packet_try_from ex_cfg ex_message = Ok ex_packet /\
  Forall keeps_counts passing /\ always_fits passing (sections_of ex_packet) /\ Forall (call_with (known_question ex_cfg) (known_record ex_cfg)) passing /\ fits_counts (changed_sections ex_packet passing) /\
  exists p', history ex_cfg passing ex_packet = Ok p' /\ hash_separates ex_hash (packet_names p') /\ length (records_of p') = 3%nat /\
    Forall (fun r => match rr_data r with DSSHFP _ | DOPT _ | DRRSIG _ => False | DCAA x => caa_tag x = [] | DSVCB x => sv_params x = [] | DTXT l => Forall (fun s => (length s <= 255)%nat) l | _ => True end /\
                     forall db, rdata_to_bytes ex_cfg (rr_data r) = Ok db -> N.of_nat (length db) <= 65535) (records_of p').
Proof.
  split; [vm_compute; repeat constructor|]. split; [vm_compute; discriminate|]. split; [vm_compute; reflexivity|]. split; [repeat constructor|].
  split; [cbn; unfold fits_counts; cbn; repeat split; try lia; intros []; cbn; lia|]. split; [repeat (constructor; try exact I; try reflexivity; try apply answer_ok)|].
  split; [unfold fits_counts; cbn; split; [lia|intros []; cbn; lia]|].
  eexists. split; [vm_compute; reflexivity|]. split; [apply separates_b_true; vm_compute; reflexivity|]. split; [reflexivity|].
  repeat constructor; intros db Eq; vm_compute in Eq; injection Eq as <-; vm_compute; discriminate.
Qed.
Print Assumptions C108_plain_partial.
Print Assumptions C108_compressed_partial.
Print Assumptions C108_answered.
Print Assumptions C108_answered_compressed.
Print Assumptions C108_edns_refuted.
