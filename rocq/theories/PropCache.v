(** * C109: records taken from messages received and given in other answers. *)
From Coq Require Import Lia ZifyBool ZifyNat ZifyN.
From Verif Require Import Base Buffer Fqdn Header Types RDataBasic Svcb RDataSec RData Packet Api BaseFacts FqdnFacts HeaderSpec HeaderFacts CodeSpec CompressSpec ChunkFacts RDataSpec RDataReads RDataFacts SvcbParse RecordSpec ApiSpec PacketFacts PacketProps SendSpec RelaySpec SendFacts RelayFacts PropName PropRecord PropPacket PropWire PropEdns PropRelay PropSpoil.

(** Records of any messages, with any time to live, given as the answers to any query: in compressed form everything but SSHFP records and texts that became longer than 255 octets ... *)
Theorem C109_compressed_partial : forall (c : cfg) (h : hasher) (d : bytes) (p : packet) (rs : list rr),
  byte_list d -> N.of_nat (length d) <= 9223372036854775807 -> packet_try_from c d = Ok p ->
  Forall (seen_record c) rs -> N.of_nat (length rs) <= 65535 -> hash_separates h (map q_name (p_questions p) ++ flat_map rr_names rs) ->
  exists p' bs, history c (answering rs) p = Ok p' /\ packet_to_bytes_compressed c h p' = Ok bs /\
    (N.of_nat (length bs) <= 16384 ->
     Forall (fun r => match rr_data r with
                      | DSSHFP _ => False
                      | DTXT l => Forall (fun s => (length s <= 255)%nat) l
                      | DCAA x => (length (caa_tag x) <= 255)%nat
                      | _ => True
                      end) rs ->
     packet_try_from c bs = Ok p') /\
    p_questions p' = p_questions p /\ p_answers p' = rs /\ p_authorities p' = [] /\ p_additionals p' = [] /\
    view (p_header p') = answer_view (view (p_header p)) (N.of_nat (length (p_questions p))) (N.of_nat (length rs)).
Proof.
  intros c h d p rs B A E F L HS. assert (O : Forall (known_record c) rs) by (eapply Forall_impl; [|exact F]; intros r X; right; exact X).
  destruct (relay_history c d p _ B A E (answering_keeps rs) (answering_fits rs _ (parsed_fits c d p B A E) L)) as (p' & H & C & R). exists p'.
  pose proof (answered _ _ _ R) as Z. destruct Z as (Zq & A1 & A2 & A3 & _).
  destruct (relay_compressed c d p _ p' B A E (answering_calls _ _ rs O) H h C) as (bs & E1 & E2).
  - unfold packet_names, records_of. rewrite Zq, A1, A2, A3, !app_nil_r. exact HS.
  - exists bs. split; [exact H|]. split; [exact E1|]. split; [|apply answered, R]. intros Lb K. apply E2; [|exact Lb]. unfold records_of. rewrite A1, A2, A3, !app_nil_r.
    eapply Forall_impl; [|exact K]. intros r. cbv beta. destruct (rr_data r); auto.
Qed.
(** ... and in plain form everything but these and the types whose length is written wrong. *)
Theorem C109_plain_partial : forall (c : cfg) (d : bytes) (p : packet) (rs : list rr),
  byte_list d -> N.of_nat (length d) <= 9223372036854775807 -> packet_try_from c d = Ok p ->
  Forall (seen_record c) rs -> N.of_nat (length rs) <= 65535 ->
  Forall (fun r => match rr_data r with
                   | DSSHFP _ | DOPT _ | DRRSIG _ => False
                   | DCAA x => caa_tag x = []
                   | DSVCB x => sv_params x = []
                   | DTXT l => Forall (fun s => (length s <= 255)%nat) l
                   | _ => True
                   end /\ forall db, rdata_to_bytes c (rr_data r) = Ok db -> N.of_nat (length db) <= 65535) rs ->
  exists p' bs p'', history c (answering rs) p = Ok p' /\ packet_to_bytes c p' = Ok bs /\ packet_try_from c bs = Ok p'' /\
    p_questions p'' = p_questions p /\ p_answers p'' = rs /\ p_authorities p'' = [] /\ p_additionals p'' = [] /\
    view (p_header p'') = answer_view (view (p_header p)) (N.of_nat (length (p_questions p))) (N.of_nat (length rs)).
Proof.
  intros c d p rs B A E F L K. assert (O : Forall (known_record c) rs) by (eapply Forall_impl; [|exact F]; intros r X; right; exact X).
  destruct (relay_history c d p _ B A E (answering_keeps rs) (answering_fits rs _ (parsed_fits c d p B A E) L)) as (p' & H & _ & R). exists p'.
  destruct (answered _ _ _ R) as (_ & A1 & A2 & A3 & _).
  destruct (C108_plain_partial c d p _ p' B A E (answering_calls _ _ rs O) H) as (bs & p'' & E1 & E2 & R'').
  - destruct (parsed_fits c d p B A E) as [F1 _]. split; [exact F1|]. intros []; [exact L|discriminate..].
  - unfold records_of. rewrite A1, A2, A3, !app_nil_r. exact K.
  - exists bs, p''. repeat (split; [assumption|]). apply answered, R''.
Qed.
(** False for SSHFP: the record of a message received is another one, or none, at the next reader. *)
Theorem C109_sshfp_refuted : forall (c : cfg) (h : hasher), exists (d : bytes) (p : packet) (r : rr) (p' : packet) (bs : bytes),
  byte_list d /\ packet_try_from c d = Ok p /\ seen_record c r /\ history c (answering [r]) p = Ok p' /\ packet_to_bytes_compressed c h p' = Ok bs /\ packet_try_from c bs <> Ok p'.
Proof.
  intros c h. exists [0; 5; 1; 0; 0; 0; 0; 0; 0; 0; 0; 0].
  set (r := match packet_try_from c sshfp_message with Ok p => match p_answers p with x :: _ => x | _ => ex_rr end | _ => ex_rr end).
  eexists. exists r. do 2 eexists. split; [repeat constructor|]. split; [destruct c as [[|] [|] o]; vm_compute; reflexivity|]. split.
  - exists sshfp_message. eexists. exists r. split; [repeat constructor|]. split; [discriminate|]. split; [destruct c as [[|] [|] o]; vm_compute; reflexivity|].
    split; [left; destruct c as [[|] [|] o]; reflexivity|]. split; [|destruct c as [[|] [|] o]; reflexivity]. destruct c as [[|] [|] o]; reflexivity.
  - split; [destruct c as [[|] [|] o]; vm_compute; reflexivity|]. split; [destruct c as [[|] [|] o]; reflexivity|destruct c as [[|] [|] o]; vm_compute; discriminate].
Qed.
(** The answers of one message given, a minute later, to the query of another. *)
Definition aged : list rr := map (fun r => rr_set_ttl r (rr_ttl r - 60)) (p_answers ex_packet).
Example C109_ex : length aged = 2%nat /\ Forall (seen_record ex_cfg) aged /\ hash_separates ex_hash (map q_name (p_questions asking_packet) ++ flat_map rr_names aged) /\
  Forall (fun r => match rr_data r with DSSHFP _ | DOPT _ | DRRSIG _ => False | DCAA x => caa_tag x = [] | DSVCB x => sv_params x = [] | DTXT l => Forall (fun s => (length s <= 255)%nat) l | _ => True end /\
                   forall db, rdata_to_bytes ex_cfg (rr_data r) = Ok db -> N.of_nat (length db) <= 65535) aged.
Proof.
  pose proof C108_ex_passed as (B & A & E & _). split; [reflexivity|]. split; [|split].
  - unfold aged. apply Forall_map, Forall_forall. intros r H. exists ex_message, ex_packet, r. split; [exact B|]. split; [exact A|]. split; [exact E|]. split; [unfold records_of; apply in_or_app; left; exact H|].
    split; [|reflexivity]. destruct H as [<-|[<-|[]]]; vm_compute; reflexivity.
  - apply separates_b_true. vm_compute. reflexivity.
  - repeat constructor; intros db Eq; vm_compute in Eq; injection Eq as <-; vm_compute; discriminate.
Qed.
Print Assumptions C109_compressed_partial.
Print Assumptions C109_plain_partial.
Print Assumptions C109_sshfp_refuted.
