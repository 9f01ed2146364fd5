(** * Records left at their defaults (C106). *)
From Coq Require Import Lia ZifyBool ZifyNat ZifyN.
From Verif Require Import Base Buffer Fqdn Header Types RDataBasic Bitmap RDataSec RData Packet Defaults BaseFacts BufferFacts FqdnFacts CodeSpec CodeFacts RDataSpec RDataReads CompressSpec ChunkFacts
  RecordSpec RecordFacts RecordProps HeaderSpec SvcbParse SpoilFacts PropName PropRecord PropPacket PropExact.

Lemma default_typed c d : In d default_data -> rtype_exists c (rdata_type d) = true -> rdata_typed c d /\
  (rdata_fits c d <-> d <> DCAA caa_default) /\ (size_exact d <-> d <> DOPT opt_default) /\
  exists bs, rdata_to_bytes c d = Ok bs /\ (length bs <= 22)%nat /\ byte_list bs /\ (d <> DCSYNC csync_default -> Forall (fun o => o = 0) bs).
Proof.
  intros I X. unfold default_data in I.
  repeat (destruct I as [<-|I]; [split; [split; [exact X|]|split; [|split; [|eexists; split; [destruct c as [[|] [|] [|]]; vm_compute; reflexivity|split; [cbn; lia|split; [repeat constructor|try (intros; repeat constructor; fail)]]]]]]|]).
  all: try contradiction.
  all: try (cbn; unfold U8, U16, U32, fqdn_ok, tset_fits, tset_typed, short, text; repeat split; cbn; repeat constructor; try lia; try reflexivity; fail).
  all: try (split; [intros _; discriminate|intros _; cbn; unfold fqdn_ok, tset_fits, short; repeat split; cbn; repeat constructor; lia]).
  all: try (split; [intros []|intros H; contradiction H; reflexivity]; fail).
  all: try (split; [intros (H & _); contradiction H; reflexivity|intros H; contradiction H; reflexivity]).
Qed.

(** What is written for data left at the default: zeros only, but for CSYNC, and in any case few octets. *)
Theorem C106_octets : forall (c : cfg) (d : rdata), In d default_data -> rtype_exists c (rdata_type d) = true ->
  exists bs, rdata_to_bytes c d = Ok bs /\ (length bs <= 22)%nat /\ (d <> DCSYNC csync_default -> Forall (fun o => o = 0) bs).
Proof. intros c d I X. destruct (default_typed c d I X) as (_ & _ & _ & bs & E & L & _ & Z). exists bs. auto. Qed.
(** A record with such data reads back, in the plain form, exactly if they are not those of an OPT record (which announces two
    octets too many) or of a CAA record (whose empty tag the reader does not accept). *)
Theorem C106_plain_iff_partial : forall (c : cfg) (r : rr) (bs : bytes), In (rr_data r) default_data -> rr_head_ok c r ->
  rr_to_bytes c r = Ok bs -> byte_list bs -> N.of_nat (length bs) <= 9223372036854775807 ->
  ((forall pre suf, rr_try_from c (mkbuf (pre ++ bs ++ suf) (length pre)) = (Ok r, mkbuf (pre ++ bs ++ suf) (length pre + length bs))) <->
   rr_data r <> DOPT opt_default /\ rr_data r <> DCAA caa_default).
Proof.
  intros c r bs I H E B A. assert (X : rtype_exists c (rdata_type (rr_data r)) = true) by (destruct H as (_ & (X & _) & T & _); rewrite <- T; exact X).
  destruct (default_typed c _ I X) as (T & F & S & db & D & L & _). rewrite (C26_plain_exact_partial c r bs T E B A). unfold rr_plain_ok, rr_ok. rewrite F, S. split; [tauto|].
  intros (O & C). split; [tauto|]. split; [exact O|]. intros db' D'. rewrite D in D'. apply Ok_inj in D'. subst db'. lia.
Qed.
(** In the compressed form packets with any number of such records read back, OPT included. *)
Theorem C106_compressed_partial : forall (c : cfg) (h : hasher) (p : packet) (out : bytes),
  header_typed (p_header p) -> Forall (question_ok c) (p_questions p) -> counts_of p = true_counts p ->
  Forall (fun r => rr_head_ok c r /\ In (rr_data r) default_data /\ rr_data r <> DCAA caa_default) (records_of p) ->
  hash_separates h (packet_names p) -> packet_to_bytes_compressed c h p = Ok out -> N.of_nat (length out) <= 16384 -> packet_try_from c out = Ok p.
Proof.
  intros c h p out H Q C R S E L. pose proof (C29_compressed_roundtrip_partial c h p out) as X. rewrite <- (app_nil_r out). apply X; try assumption.
  split; [exact H|]. split; [exact Q|]. eapply Forall_impl; [|exact R]. intros r (Hr & I & D).
  assert (Xt : rtype_exists c (rdata_type (rr_data r)) = true) by (destruct Hr as (_ & (Y & _) & T & _); rewrite <- T; exact Y).
  destruct (default_typed c _ I Xt) as (T & F & _). split; [exact Hr|]. split; [exact T|]. apply F, D.
Qed.
(** False: an OPT record without options, as an EDNS query has it, is written so in the plain form that the library itself
    cannot read the message, whatever precedes it. *)
Theorem C106_opt_refuted : forall (c : cfg) (p : packet) (before : list rr) (r : rr) (bs : bytes),
  header_typed (p_header p) -> Forall (question_ok c) (p_questions p) -> small_sections p ->
  records_of p = before ++ [r] -> Forall (rr_plain_ok c) before -> rr_head_ok c r -> rr_data r = DOPT opt_default ->
  packet_to_bytes c p = Ok bs -> byte_list bs -> forall p', packet_try_from c bs <> Ok p'.
Proof.
  intros c p before r bs Hh Q Sm Er Fb H D E B p' R. rewrite <- (app_nil_r bs) in R. assert (B' : byte_list (bs ++ [])) by (rewrite app_nil_r; exact B).
  destruct (record_place c p bs [] before r [] p' E Hh Sm B' Q Er Fb R) as (_ & rb & pre & rest & e & r' & after' & Eb & Dx & Nr & _ & A).
  rewrite (Nr eq_refl), !app_nil_r in Dx. rewrite app_nil_r, Dx in A. rewrite Dx in B. assert (T : rdata_typed c (rr_data r)) by (rewrite D; split; [destruct H as (_ & (X & _) & T & _); rewrite T, D in X; exact X|split; [apply NoDup_nil|apply Forall_nil]]).
  destruct (plain_parts c r rb T Eb) as (k & db & Ed & Eb' & Sz). rewrite D in Sz, Ed. cbn in Ed. apply Ok_inj in Ed. subst db. cbn in Sz.
  assert (k = 2)%nat as -> by lia. destruct H as (Hn & _). rewrite <- (app_nil_r rb) in A, B.
  destruct (record_frame c r r' rb pre [] (len16 2) [] e Hn Eb' (len16_lt 2) B A) as (Dx' & Ee & Le & _). cbv zeta in *. rewrite Dx' in Le. change (N.to_nat (len16 2)) with 2%nat in Ee.
  rewrite Ee, !app_length, !be_length in Le. cbn [length] in Le. lia.
Qed.
(** False: the empty tag of CAA data left at the default is not accepted, in either form. *)
Theorem C106_caa_refuted : forall (c : cfg) (pre : bytes), exists bs, rdata_to_bytes c (DCAA caa_default) = Ok bs /\
  fst (rdata_from c CAA (mkbuf (pre ++ bs) (length pre))) = Err InvalidPacketData.
Proof.
  intros c pre. exists [0; 0]. split; [reflexivity|]. cbn [rdata_from]. unfold pmap, caa_try_from, bind at 1 2. Transparent reads.
  pose proof (reads_u8 pre [0] 0 eq_refl) as R. unfold reads in R. cbn [app length] in R. rewrite R. unfold bind at 1.
  pose proof (reads_u8 (pre ++ [0]) [] 0 eq_refl) as R'. unfold reads in R'. rewrite app_length, <- app_assoc in R'. cbn [app length] in R'. rewrite R'. Opaque reads. reflexivity.
Qed.

Definition ex_defaults (ds : list (rtype * rdata)) : packet := mkPacket (mkheader 7 (hflags (header_new_reply 0 StandardQuery)) 1 (N.of_nat (length ds)) 0 0) [ex_question]
  (map (fun d => mkRR ex_www (fst d) false CIN 3600 (snd d)) ds) [] [].
Lemma ex_default_head c t d : decodable c t -> t = rdata_type d -> rr_head_ok c (mkRR ex_www t false CIN 3600 d).
Proof. intros X T. repeat split; try apply X; try exact T; try reflexivity; try discriminate; unfold fqdn_ok, label_ok; repeat constructor; cbn; lia. Qed.
Example C106_ex : In (DSOA soa_default) default_data /\ rr_head_ok ex_cfg (mkRR ex_www SOA false CIN 3600 (DSOA soa_default)) /\
  DSOA soa_default <> DOPT opt_default /\ DSOA soa_default <> DCAA caa_default.
Proof. split; [cbn; tauto|]. split; [apply ex_default_head; [repeat split; discriminate|reflexivity]|]. split; discriminate. Qed.
Example C106_ex_compressed : let p := ex_defaults [(SOA, DSOA soa_default); (OPT, DOPT opt_default); (CSYNC, DCSYNC csync_default)] in
  header_typed (p_header p) /\ Forall (question_ok ex_cfg) (p_questions p) /\ counts_of p = true_counts p /\
  Forall (fun r => rr_head_ok ex_cfg r /\ In (rr_data r) default_data /\ rr_data r <> DCAA caa_default) (records_of p) /\ hash_separates ex_hash (packet_names p) /\
  exists out, packet_to_bytes_compressed ex_cfg ex_hash p = Ok out /\ N.of_nat (length out) <= 16384.
Proof.
  cbv zeta. split; [repeat split|]. split; [repeat constructor; apply C22_ex|]. split; [reflexivity|].
  split; [repeat apply Forall_cons; try apply Forall_nil; (split; [apply ex_default_head; [repeat split; discriminate|reflexivity]|split; [cbn; tauto|discriminate]])|].
  split; [apply separates_b_true; vm_compute; reflexivity|]. eexists. split; [vm_compute; reflexivity|]. vm_compute. discriminate.
Qed.
Example C106_ex_opt : let p := ex_defaults [(SOA, DSOA soa_default); (OPT, DOPT opt_default)] in
  header_typed (p_header p) /\ Forall (question_ok ex_cfg) (p_questions p) /\ small_sections p /\
  Forall (rr_plain_ok ex_cfg) (firstn 1 (records_of p)) /\ rr_head_ok ex_cfg (mkRR ex_www OPT false CIN 3600 (DOPT opt_default)) /\
  exists bs, packet_to_bytes ex_cfg p = Ok bs /\ byte_list bs.
Proof.
  cbv zeta. split; [repeat split|]. split; [repeat constructor; apply C22_ex|]. split; [repeat split; discriminate|].
  split. { repeat constructor; try discriminate; try (unfold fqdn_ok, label_ok; repeat constructor; cbn; lia). intros bs E. injection E as <-. vm_compute. discriminate. }
  split; [apply ex_default_head; [repeat split; discriminate|reflexivity]|].
  eexists. split; [vm_compute; reflexivity|]. repeat constructor.
Qed.
Print Assumptions C106_octets.
Print Assumptions C106_plain_iff_partial.
Print Assumptions C106_compressed_partial.
Print Assumptions C106_opt_refuted.
Print Assumptions C106_caa_refuted.
