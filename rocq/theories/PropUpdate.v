(** * C111: records without data, as dynamic updates carry them (RFC 2136 2.4, 2.5). *)
From Coq Require Import Lia ZifyBool ZifyNat ZifyN.
From Verif Require Import Base Buffer Fqdn Header Types RDataBasic Svcb RDataSec RData Packet BaseFacts BufferFacts FqdnFacts HeaderSpec HeaderFacts CodeSpec CodeFacts RDataSpec RDataReads RDataFacts RecordSpec RecordFacts PacketFacts UpdateSpec UpdateFacts PropName PropRecord PropPacket.

(** One such record, anywhere in a message, of every type the library reads, with class ANY or NONE: four types are read, eight panic,
    and all others are refused. *)
Theorem C111_record_partial : forall (c : cfg) (pre suf : bytes) (f : fqdn) (T : rtype) (v : N),
  fqdn_ok f -> decodable c T -> v = 254 \/ v = 255 ->
  fst (rr_try_from c (mkbuf (pre ++ no_data f (rtype_code T) v ++ suf) (length pre))) =
  match without_data T with
  | Ok d => Ok (mkRR f T false (UdpPayloadSize v) 0 d)
  | Err e => Err e | Panic => Panic | Diverge => Diverge
  end.
Proof. intros c pre suf f T v F D V. exact (no_data_ends c T f v pre suf F D V). Qed.
Print Assumptions C111_record_partial.

(** A message with such a record of one of the eight types among its prerequisites or its updates, after any readable records, panics,
    whatever follows ... *)
Theorem C111_panic_refuted : forall (c : cfg) (h : header) (qs : list question) (prs ups : list rr) (bp bu : bytes) (f : fqdn) (T : rtype) (v : N) (suf : bytes),
  header_typed h -> ques_count h = N.of_nat (length qs) -> Forall (question_ok c) qs ->
  Forall (rr_plain_ok c) prs -> concat_res (rr_to_bytes c) prs = Ok bp -> Forall (rr_plain_ok c) ups -> concat_res (rr_to_bytes c) ups = Ok bu ->
  (N.of_nat (length prs) < ans_count h /\ ups = []) \/ (ans_count h = N.of_nat (length prs) /\ N.of_nat (length ups) < auth_count h) ->
  fqdn_ok f -> decodable c T -> v = 254 \/ v = 255 -> In T [NS; CNAME; SOA; PTR; MINFO; NSEC; TKEY; TSIG] ->
  packet_try_from c (header_to_bytes h ++ flat_map (question_to_bytes c) qs ++ bp ++ bu ++ no_data f (rtype_code T) v ++ suf) = Panic.
Proof.
  intros c h qs prs ups bp bu f T v suf H Q FQ FA EA FN EN D F DT V I.
  eapply (message_stops c h qs prs ups bp bu _ suf Panic Panic); try eassumption; [|exact Logic.I].
  intros pre. pose proof (no_data_ends c T f v pre suf F DT V) as E. unfold no_data_read in E.
  replace (without_data T) with (@Panic rdata) in E; [exact E|]. cbn [In] in I. repeat destruct I as [<-|I]; try reflexivity. contradiction.
Qed.
Print Assumptions C111_panic_refuted.
(** ... and one with such a record of another type, or of type ANY, is refused. *)
Theorem C111_error_refuted : forall (c : cfg) (h : header) (qs : list question) (prs ups : list rr) (bp bu : bytes) (f : fqdn) (T : rtype) (v : N) (suf : bytes),
  header_typed h -> ques_count h = N.of_nat (length qs) -> Forall (question_ok c) qs ->
  Forall (rr_plain_ok c) prs -> concat_res (rr_to_bytes c) prs = Ok bp -> Forall (rr_plain_ok c) ups -> concat_res (rr_to_bytes c) ups = Ok bu ->
  (N.of_nat (length prs) < ans_count h /\ ups = []) \/ (ans_count h = N.of_nat (length prs) /\ N.of_nat (length ups) < auth_count h) ->
  fqdn_ok f -> decodable c T -> v = 254 \/ v = 255 -> ~ In T [NS; CNAME; SOA; PTR; MINFO; NSEC; TKEY; TSIG; NULL; TXT; OPT; OPENPGPKEY] ->
  packet_try_from c (header_to_bytes h ++ flat_map (question_to_bytes c) qs ++ bp ++ bu ++ no_data f (rtype_code T) v ++ suf) = Err LengthViolation.
Proof.
  intros c h qs prs ups bp bu f T v suf H Q FQ FA EA FN EN D F DT V I.
  eapply (message_stops c h qs prs ups bp bu _ suf (Err LengthViolation) (Err LengthViolation)); try eassumption; [|reflexivity].
  intros pre. pose proof (no_data_ends c T f v pre suf F DT V) as E. unfold no_data_read in E.
  replace (without_data T) with (@Err rdata LengthViolation) in E; [exact E|]. cbn [In] in I. destruct T; try reflexivity; tauto.
Qed.
Print Assumptions C111_error_refuted.
Theorem C111_any_refuted : forall (c : cfg) (h : header) (qs : list question) (prs ups : list rr) (bp bu : bytes) (f : fqdn) (v : N) (suf : bytes),
  header_typed h -> ques_count h = N.of_nat (length qs) -> Forall (question_ok c) qs ->
  Forall (rr_plain_ok c) prs -> concat_res (rr_to_bytes c) prs = Ok bp -> Forall (rr_plain_ok c) ups -> concat_res (rr_to_bytes c) ups = Ok bu ->
  (N.of_nat (length prs) < ans_count h /\ ups = []) \/ (ans_count h = N.of_nat (length prs) /\ N.of_nat (length ups) < auth_count h) ->
  fqdn_ok f ->
  packet_try_from c (header_to_bytes h ++ flat_map (question_to_bytes c) qs ++ bp ++ bu ++ no_data f 255 v ++ suf) = Err (InvalidType 255).
Proof.
  intros c h qs prs ups bp bu f v suf H Q FQ FA EA FN EN D F.
  eapply (message_stops c h qs prs ups bp bu _ suf (Err (InvalidType 255)) (Err (InvalidType 255))); try eassumption; [|reflexivity].
  intros pre. unfold rr_try_from, no_data. eapply ends_bind; [apply reads_fqdn, F|]. apply ends_after.
  eapply (ends_first _ _ _ _ _ (Err (InvalidType 255))); [|reflexivity].
  unfold extract_u16_as. rewrite <- (app_nil_r (be 2 255)). eapply ends_bind; [apply reads_u16; reflexivity|].
  unfold ends, lift. destruct c as [[] [] ?]; reflexivity.
Qed.
Print Assumptions C111_any_refuted.

(** Nor can the library write such records: a record with no data is one of four values. *)
Theorem C111_written : forall (c : cfg) (d : rdata), rdata_typed c d -> rdata_to_bytes c d = Ok [] ->
  d = DNULL [] \/ d = DTXT [] \/ d = DOPT [] \/ d = DOPENPGPKEY [].
Proof. exact empty_written. Qed.
Print Assumptions C111_written.

(** "Delete the address records of www.example.org": refused.  "Delete its name servers", after a record that is added: a panic. *)
Definition update_header (pr up : N) : header := mkheader 1 (mkflags 40) 1 pr up 0.
Definition added_rr : rr := mkRR ex_www A false CIN 300 (DA 16909060).
Definition update_bytes : bytes := ex_bytes (rr_to_bytes ex_cfg added_rr).
Example C111_ex :
  header_typed (update_header 0 2) /\ ques_count (update_header 0 2) = N.of_nat (length [ex_question]) /\ Forall (question_ok ex_cfg) [ex_question] /\
  Forall (rr_plain_ok ex_cfg) [added_rr] /\ concat_res (rr_to_bytes ex_cfg) [added_rr] = Ok update_bytes /\
  N.of_nat (length [added_rr]) < auth_count (update_header 0 2) /\ fqdn_ok ex_www /\ decodable ex_cfg NS /\ decodable ex_cfg A /\
  packet_try_from ex_cfg (header_to_bytes (update_header 0 2) ++ question_to_bytes ex_cfg ex_question ++ update_bytes ++ no_data ex_www (rtype_code NS) 255) = Panic /\
  packet_try_from ex_cfg (header_to_bytes (update_header 0 2) ++ question_to_bytes ex_cfg ex_question ++ update_bytes ++ no_data ex_www (rtype_code A) 255) = Err LengthViolation /\
  packet_try_from ex_cfg (header_to_bytes (update_header 0 2) ++ question_to_bytes ex_cfg ex_question ++ update_bytes ++ no_data ex_www (rtype_code TXT) 255)
    = Ok (mkPacket (update_header 0 2) [ex_question] [] [added_rr; mkRR ex_www TXT false (UdpPayloadSize 255) 0 (DTXT [])] []).
Proof.
  assert (FQ : fqdn_ok ex_www) by (repeat constructor; cbn; lia).
  split; [repeat split; reflexivity|]. split; [reflexivity|].
  split; [constructor; [|constructor]; repeat split; try discriminate; repeat constructor; cbn; try lia|].
  split.
  { constructor; [|constructor]. split; [|split; [exact Logic.I|]].
    - split; [|split; [split; [exact (basic_exists ex_cfg A eq_refl)|]|]]; cbn; repeat split; try exact FQ; try reflexivity; try discriminate; try lia.
    - intros bs E. injection E as <-. cbn. lia. }
  split; [reflexivity|]. split; [reflexivity|]. split; [exact FQ|]. split; [repeat split; discriminate|]. split; [repeat split; discriminate|].
  repeat split; vm_compute; reflexivity.
Qed.
