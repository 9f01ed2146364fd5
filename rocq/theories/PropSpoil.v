(** * Plain messages with records of a wrong length (C28, exact form). *)
From Coq Require Import Lia ZifyBool ZifyNat ZifyN.
From Verif Require Import Base Buffer Fqdn Header Types RDataBasic Svcb RDataSec RData Packet BaseFacts FqdnFacts CompressSpec ChunkFacts HeaderSpec CodeSpec RDataSpec RecordSpec RDataReads PacketFacts PacketProps SpoilFacts ReturnFacts PropName PropRecord PropPacket.

(** A packet comes back from its plain form exactly when it is well-formed and contains no OPT, no RRSIG and no CAA record; SVCB records with parameters
    are dealt with below. *)
Theorem C28_plain_iff_partial : forall (c : cfg) (p : packet) (bs suf : bytes),
  Forall (fun r => forall db, rdata_to_bytes c (rr_data r) = Ok db -> N.of_nat (length db) <= 65535) (records_of p) ->
  Forall (fun r => forall x, rr_data r = DSVCB x -> sv_params x = []) (records_of p) ->
  packet_to_bytes c p = Ok bs -> byte_list (bs ++ suf) -> N.of_nat (length (bs ++ suf)) <= 9223372036854775807 ->
  let p' := mkPacket (mkheader (id (p_header p)) (hflags (p_header p)) (N.of_nat (length (p_questions p))) (N.of_nat (length (p_answers p)))
                               (N.of_nat (length (p_authorities p))) (N.of_nat (length (p_additionals p))))
                     (p_questions p) (p_answers p) (p_authorities p) (p_additionals p) in
  (packet_try_from c (bs ++ suf) = Ok p' <->
   packet_ok c p' /\ Forall (fun r => match rr_data r with DOPT _ | DRRSIG _ | DCAA _ => False | _ => True end) (records_of p)).
Proof.
  intros c p bs suf W V E B A. cbv zeta. change (mkPacket _ _ _ _ _) with (recount p). split.
  - intros R. destruct (plain_back c p bs suf E W V B A R) as (H & Q & F). change (records_of (recount p)) with (records_of p) in F. split.
    + split; [exact H|]. split; [exact Q|]. eapply Forall_impl; [|exact F]. intros r O. exact (proj1 O).
    + eapply Forall_impl; [|exact F]. intros r ((_ & _ & T) & S & _). destruct (rr_data r); cbn [size_exact rdata_fits] in *; try exact I; try contradiction. exact (proj1 T S).
  - intros ((H & Q & R) & F). assert (Sm : small_sections (recount p)) by (destruct H as (_ & H1 & H2 & H3 & H4); cbn [recount p_header ques_count ans_count auth_count add_count] in H1, H2, H3, H4; unfold U16 in *; unfold small_sections; cbn [recount p_questions p_answers p_authorities p_additionals]; lia).
    destruct (packet_roundtrip c (recount p)) as (bs' & E' & G); [|exact Sm|rewrite recount_bytes, E in E'; apply Ok_inj in E'; subst bs'; apply G].
    split; [exact H|]. split; [exact Q|]. change (records_of (recount p)) with (records_of p) in *. apply Forall_forall. intros r Hr. rewrite Forall_forall in R, W, F, V. split; [apply R, Hr|]. split; [|apply W, Hr].
    specialize (F r Hr). specialize (V r Hr). cbn beta in F. destruct (rr_data r); cbn [size_exact]; try exact I; try contradiction. apply V. reflexivity.
Qed.
(** Whatever the receiver makes of such a message: the first of these records has changed. *)
Theorem C28_changed_refuted : forall (c : cfg) (p p' : packet) (bs suf : bytes) (before after : list rr) (r : rr),
  header_typed (p_header p) -> Forall (question_ok c) (p_questions p) -> small_sections p ->
  records_of p = before ++ r :: after -> Forall (rr_plain_ok c) before -> rr_ok c r ->
  match rr_data r with DOPT _ | DRRSIG _ | DCAA _ => True | _ => False end ->
  (forall db, rdata_to_bytes c (rr_data r) = Ok db -> N.of_nat (length db) <= 65535) ->
  packet_to_bytes c p = Ok bs -> byte_list (bs ++ suf) -> packet_try_from c (bs ++ suf) = Ok p' ->
  exists r' after', records_of p' = before ++ r' :: after' /\ r' <> r.
Proof.
  intros c p p' bs suf before after r H Q S Es F O T W E B R. apply (spoiled_never c p bs suf before r after p' E H S B Q Es F O); [|exact W|exact R].
  destruct O as (_ & _ & G). destruct (rr_data r); cbn [too_short rdata_fits] in *; try exact I; try contradiction. exact (proj1 G).
Qed.
(** A plain message that ends with an SVCB record with parameters is rejected. *)
Theorem C28_svcb_refuted : forall (c : cfg) (p : packet) (bs : bytes) (before : list rr) (r : rr) (x : svcb),
  header_typed (p_header p) -> Forall (question_ok c) (p_questions p) -> small_sections p ->
  records_of p = before ++ [r] -> Forall (rr_plain_ok c) before -> rr_ok c r -> rr_data r = DSVCB x -> sv_params x <> [] ->
  (forall db, rdata_to_bytes c (rr_data r) = Ok db -> N.of_nat (length db + 4 * length (sv_params x)) <= 65535) ->
  packet_to_bytes c p = Ok bs -> byte_list bs -> forall p', packet_try_from c bs <> Ok p'.
Proof. intros c p bs before r x H Q S Es F O D N W E B. exact (svcb_rejected c p bs before r x E H S B Q Es F O D N W). Qed.

Definition mixed_packet (d : rdata) : packet := mkPacket (mkheader 5 (hflags (header_new_reply 0 StandardQuery)) 1 3 0 0) [ex_question]
  [ex_rr; mkRR ex_ftp (rdata_type d) false CIN 60 d; mkRR ex_ftp A false CCH 60 (DA 16909060)] [] [].
Definition svcb_packet : packet := mkPacket (mkheader 5 (hflags (header_new_reply 0 StandardQuery)) 1 2 0 0) [ex_question] [ex_rr; mkRR ex_ftp SVCB false CIN 60 ex_svcb] [] [].
Definition ex_options : rdata := DOPT [(10, [1; 2]); (3, [])].
Lemma fits_ex d : In d [ex_options; ex_caa; ex_svcb] -> rdata_typed ex_cfg d /\ rdata_fits ex_cfg d.
Proof. intros H. apply (proj1 (Forall_forall _ _) C23_ex). cbn in *. tauto. Qed.
Lemma ftp_ok t d : In d [ex_options; ex_caa; ex_svcb] -> t = rdata_type d -> decodable ex_cfg t -> rr_ok ex_cfg (mkRR ex_ftp t false CIN 60 d).
Proof.
  intros H -> D. split; [|apply fits_ex, H]. split; [unfold fqdn_ok, label_ok; repeat constructor; cbn; lia|]. split; [exact D|]. repeat split; try discriminate; reflexivity.
Qed.
Lemma soa_plain : rr_plain_ok ex_cfg ex_rr.
Proof. pose proof ex_packet_plain as (_ & _ & P). apply (Forall_inv P). Qed.
Lemma ch_plain : rr_plain_ok ex_cfg (mkRR ex_ftp A false CCH 60 (DA 16909060)).
Proof. pose proof ex_packet_plain as (_ & _ & P). apply (Forall_inv (Forall_inv_tail P)). Qed.
Example C28_ex_iff : packet_ok ex_cfg (mixed_packet ex_options) /\ small_sections (mixed_packet ex_options) /\
  Forall (fun r => forall db, rdata_to_bytes ex_cfg (rr_data r) = Ok db -> N.of_nat (length db) <= 65535) (records_of (mixed_packet ex_options)) /\
  Forall (fun r => forall x, rr_data r = DSVCB x -> sv_params x = []) (records_of (mixed_packet ex_options)) /\
  exists bs, packet_to_bytes ex_cfg (mixed_packet ex_options) = Ok bs /\ byte_list bs.
Proof.
  split; [split; [repeat split|split; [repeat constructor; apply C22_ex|apply Forall_cons; [exact (proj1 soa_plain)|apply Forall_cons; [apply ftp_ok; [cbn; tauto|reflexivity|repeat split; discriminate]|apply Forall_cons; [exact (proj1 ch_plain)|apply Forall_nil]]]]]|].
  split; [repeat split; discriminate|]. split; [repeat apply Forall_cons; try apply Forall_nil; intros db E; injection E as <-; vm_compute; discriminate|].
  split; [repeat apply Forall_cons; try apply Forall_nil; discriminate|]. eexists. split; [vm_compute; reflexivity|repeat constructor].
Qed.
(** A message with a CAA record. *)
Example C28_ex_changed : exists bs, packet_to_bytes ex_cfg caa_packet = Ok bs /\ byte_list (bs ++ [0; 0; 0]) /\ rr_ok ex_cfg (mkRR [] CAA false CIN 60 ex_caa) /\
  records_of caa_packet = [] ++ mkRR [] CAA false CIN 60 ex_caa :: [].
Proof. eexists. split; [vm_compute; reflexivity|]. split; [repeat constructor|]. split; [apply (Forall_inv (proj2 (proj2 (caa_packet_ok ex_cfg))))|reflexivity]. Qed.
Example C28_ex_svcb : header_typed (p_header svcb_packet) /\ Forall (question_ok ex_cfg) (p_questions svcb_packet) /\ small_sections svcb_packet /\
  Forall (rr_plain_ok ex_cfg) [ex_rr] /\ rr_ok ex_cfg (mkRR ex_ftp SVCB false CIN 60 ex_svcb) /\ (exists bs, packet_to_bytes ex_cfg svcb_packet = Ok bs /\ byte_list bs) /\
  forall db, rdata_to_bytes ex_cfg ex_svcb = Ok db -> N.of_nat (length db + 4 * 2) <= 65535.
Proof.
  split; [repeat split|]. split; [repeat constructor; apply C22_ex|]. split; [repeat split; discriminate|]. split; [constructor; [apply soa_plain|constructor]|].
  split; [apply ftp_ok; [cbn; tauto|reflexivity|repeat split; discriminate]|]. split; [eexists; split; [vm_compute; reflexivity|repeat constructor]|]. intros db E. injection E as <-. vm_compute. discriminate.
Qed.

(** ** C29: the compressed form of a packet comes back exactly when the packet is well-formed and its counts are right *)
Theorem C29_compressed_iff_partial : forall (c : cfg) (h : hasher) (p : packet) (bs suf : bytes),
  hash_separates h (packet_names p) -> packet_to_bytes_compressed c h p = Ok bs -> N.of_nat (length bs) <= 16384 ->
  byte_list (bs ++ suf) -> N.of_nat (length (bs ++ suf)) <= 9223372036854775807 ->
  (packet_try_from c (bs ++ suf) = Ok p <-> packet_ok c p /\ counts_of p = true_counts p).
Proof.
  intros c h p bs suf S E L B A. split; [exact (packet_back c h p bs suf S E L B A)|]. intros [O K]. exact (packet_compressed c h p bs O K S E L suf).
Qed.
(** A packet that comes back, with octets behind it, and one that does not: its label has 192 octets, which reads as a pointer. *)
Definition long_packet : packet := mkPacket (mkheader 5 (hflags (header_new_reply 0 StandardQuery)) 0 1 0 0) [] [mkRR [repeat 97 192] A false CIN 60 (DA 16909060)] [] [].
Example C29_ex_iff : hash_separates ex_hash (packet_names ex_packet) /\
  (exists bs, packet_to_bytes_compressed ex_cfg ex_hash ex_packet = Ok bs /\ N.of_nat (length bs) <= 16384 /\ byte_list (bs ++ [7; 0]) /\ packet_try_from ex_cfg (bs ++ [7; 0]) = Ok ex_packet) /\
  hash_separates ex_hash (packet_names long_packet) /\
  (exists bs, packet_to_bytes_compressed ex_cfg ex_hash long_packet = Ok bs /\ N.of_nat (length bs) <= 16384 /\ byte_list bs) /\ ~ packet_ok ex_cfg long_packet.
Proof.
  split; [exact ex_packet_separates|]. split; [eexists; split; [vm_compute; reflexivity|]; split; [vm_compute; discriminate|]; split; [repeat constructor|vm_compute; reflexivity]|].
  split; [apply separates_b_true; vm_compute; reflexivity|]. split; [eexists; split; [vm_compute; reflexivity|]; split; [vm_compute; discriminate|repeat constructor]|].
  intros (_ & _ & R). apply Forall_inv in R. destruct R as ((F & _) & _). apply Forall_inv in F. destruct F as [_ F]. revert F. apply Nat.leb_nle. reflexivity.
Qed.
(** ** C37: a received packet that is passed on in compressed form arrives unchanged exactly when it has no SSHFP record and no text that
    grew beyond 255 octets when it was decoded *)
Theorem C37_compressed_iff_partial : forall (c : cfg) (h : hasher) (d : bytes) (p : packet) (bs suf : bytes),
  byte_list d -> N.of_nat (length d) <= 9223372036854775807 -> packet_try_from c d = Ok p ->
  hash_separates h (packet_names p) -> packet_to_bytes_compressed c h p = Ok bs -> N.of_nat (length bs) <= 16384 ->
  byte_list (bs ++ suf) -> N.of_nat (length (bs ++ suf)) <= 9223372036854775807 ->
  (packet_try_from c (bs ++ suf) = Ok p <->
   Forall (fun r => match rr_data r with
                    | DSSHFP _ => False
                    | DTXT l => Forall (fun s => (length s <= 255)%nat) l
                    | DCAA x => (length (caa_tag x) <= 255)%nat
                    | _ => True
                    end) (records_of p)).
Proof.
  intros c h d p bs suf B A R S E L B' A'. pose proof (packet_parsed_records c d p B A R) as (H & K & Q & P). split.
  - intros G. destruct (packet_back c h p bs suf S E L B' A' G) as [(_ & _ & O) _]. eapply Forall_impl; [|exact O]. intros r (_ & _ & F).
    destruct (rr_data r); cbn [rdata_fits] in F; try exact I; [exact F|exact F|apply F].
  - intros F. apply (packet_compressed c h p bs); try assumption. split; [exact H|]. split; [exact Q|]. apply Forall_forall. intros r Hr. rewrite Forall_forall in P, F.
    destruct (P r Hr) as (Hh & T & _ & W). split; [exact Hh|]. split; [exact T|]. apply W. specialize (F r Hr). cbn beta in F. destruct (rr_data r); exact F || exact I.
Qed.
(** Passed on in plain form: besides these, no OPT, RRSIG and CAA record may be in the packet. *)
Theorem C37_plain_iff_partial : forall (c : cfg) (d : bytes) (p : packet) (bs suf : bytes),
  byte_list d -> N.of_nat (length d) <= 9223372036854775807 -> packet_try_from c d = Ok p ->
  Forall (fun r => forall db, rdata_to_bytes c (rr_data r) = Ok db -> N.of_nat (length db) <= 65535) (records_of p) ->
  Forall (fun r => forall x, rr_data r = DSVCB x -> sv_params x = []) (records_of p) ->
  packet_to_bytes c p = Ok bs -> byte_list (bs ++ suf) -> N.of_nat (length (bs ++ suf)) <= 9223372036854775807 ->
  (packet_try_from c (bs ++ suf) = Ok p <->
   Forall (fun r => match rr_data r with
                    | DSSHFP _ | DOPT _ | DRRSIG _ | DCAA _ => False
                    | DTXT l => Forall (fun s => (length s <= 255)%nat) l
                    | _ => True
                    end) (records_of p)).
Proof.
  intros c d p bs suf B A R L V E B' A'. pose proof (packet_parsed_records c d p B A R) as (H & K & Q & P).
  pose proof (C28_plain_iff_partial c p bs suf L V E B' A') as X. cbv zeta in X. change (mkPacket _ _ _ _ _) with (recount p) in X. rewrite (recount_same p K) in X. rewrite X. clear X. split.
  - intros [(_ & _ & O) N]. apply Forall_forall. intros r Hr. rewrite Forall_forall in O, N. specialize (O r Hr). specialize (N r Hr). cbn beta in N. destruct O as (_ & _ & F).
    destruct (rr_data r); cbn [rdata_fits] in F; first [exact I|exact F|exact N].
  - intros F. split.
    + split; [exact H|]. split; [exact Q|]. apply Forall_forall. intros r Hr. rewrite Forall_forall in P, F. destruct (P r Hr) as (Hh & T & _ & W). split; [exact Hh|]. split; [exact T|]. apply W.
      specialize (F r Hr). cbn beta in F. destruct (rr_data r); first [exact F|exact I|destruct F].
    + eapply Forall_impl; [|exact F]. intros r. cbv beta. destruct (rr_data r); tauto.
Qed.
(** A received packet with an SSHFP record, and one without. *)
Definition sshfp_message : bytes := [0; 1; 128; 0; 0; 0; 0; 1; 0; 0; 0; 0] ++ [0; 0; 44; 0; 1; 0; 0; 0; 60; 0; 5; 1; 1; 2; 171; 205].
Example C37_ex_iff : (exists p bs, packet_try_from ex_cfg sshfp_message = Ok p /\ hash_separates ex_hash (packet_names p) /\ packet_to_bytes_compressed ex_cfg ex_hash p = Ok bs /\
    N.of_nat (length bs) <= 16384 /\ byte_list bs /\ packet_try_from ex_cfg bs <> Ok p) /\
  exists d bs, packet_try_from ex_cfg d = Ok ex_packet /\ packet_to_bytes_compressed ex_cfg ex_hash ex_packet = Ok bs /\ byte_list d /\ byte_list bs /\ bs <> d.
Proof.
  split.
  - do 2 eexists. split; [vm_compute; reflexivity|]. split; [apply separates_b_true; vm_compute; reflexivity|]. split; [vm_compute; reflexivity|].
    split; [vm_compute; discriminate|]. split; [repeat constructor|vm_compute; discriminate].
  - exists (match packet_to_bytes ex_cfg ex_packet with Ok b => b | _ => [] end). eexists. split; [vm_compute; reflexivity|]. split; [vm_compute; reflexivity|].
    split; [vm_compute; repeat constructor|]. split; [repeat constructor|vm_compute; discriminate].
Qed.
Example C37_ex_plain : exists p bs, packet_try_from ex_cfg sshfp_message = Ok p /\
  Forall (fun r => forall db, rdata_to_bytes ex_cfg (rr_data r) = Ok db -> N.of_nat (length db) <= 65535) (records_of p) /\
  Forall (fun r => forall x, rr_data r = DSVCB x -> sv_params x = []) (records_of p) /\
  packet_to_bytes ex_cfg p = Ok bs /\ byte_list (bs ++ [1]) /\ packet_try_from ex_cfg (bs ++ [1]) <> Ok p.
Proof.
  do 2 eexists. split; [vm_compute; reflexivity|]. split; [constructor; [intros db E; vm_compute in E; injection E as <-; vm_compute; discriminate|constructor]|].
  split; [constructor; [discriminate|constructor]|]. split; [vm_compute; reflexivity|]. split; [repeat constructor|vm_compute; discriminate].
Qed.
Print Assumptions C28_plain_iff_partial.
Print Assumptions C28_changed_refuted.
Print Assumptions C28_svcb_refuted.
Print Assumptions C29_compressed_iff_partial.
Print Assumptions C37_compressed_iff_partial.
Print Assumptions C37_plain_iff_partial.
