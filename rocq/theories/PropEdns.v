(** * C107: EDNS (RFC 6891): the parameters of an OPT record are seen by the other side. *)
From Coq Require Import Lia ZifyBool ZifyNat ZifyN.
From Verif Require Import Base Buffer Fqdn Header Types RDataBasic Svcb RDataSec RData Packet BaseFacts BufferFacts FqdnFacts NameSpec NameProps CompressSpec ChunkFacts HeaderSpec CodeSpec RDataSpec RecordSpec WireSpec FieldSpec CodeFacts WireFacts FieldFacts RDataReads RDataFacts RecordFacts PacketFacts PacketProps SpoilFacts ReturnFacts PropName PropRecord PropPacket PropSpoil.

(** RFC 6891, 6.1.2 and 6.1.3: the root, type 41, the sender's UDP payload size in place of the class, the upper bits of the response code, the version and the
    flags (DO is the highest) in place of the TTL, and the options, each a code, a length and that many octets. *)
Definition option_octets (x : N * bytes) : bytes := be 2 (fst x) ++ be 2 (N.of_nat (length (snd x))) ++ snd x.
Definition edns_octets (size rcode version flags : N) (options : list (N * bytes)) : bytes :=
  [0] ++ be 2 41 ++ be 2 size ++ [rcode; version] ++ be 2 flags ++ be 2 (N.of_nat (length (flat_map option_octets options))) ++ flat_map option_octets options.
Definition edns_typed (size rcode version flags : N) (options : list (N * bytes)) : Prop :=
  size < 65536 /\ rcode < 256 /\ version < 256 /\ flags < 65536 /\ Forall (fun x => fst x < 65536) options /\
  N.of_nat (length (flat_map option_octets options)) <= 65535.

Lemma edns_options options : N.of_nat (length (flat_map option_octets options)) <= 65535 -> Forall (fun x => short16 (snd x)) options.
Proof.
  intros L. apply Forall_forall. intros x H. apply in_split in H. destruct H as (a & b & ->). rewrite flat_map_app in L. cbn [flat_map] in L. unfold option_octets at 2 in L.
  rewrite !app_length in L. unfold short16. lia.
Qed.
Lemma edns_same options : Forall (fun x => short16 (snd x)) options -> flat_map option_octets options = opt_to_bytes options.
Proof.
  intros F. unfold opt_to_bytes. induction F as [|x l S F IH]; [reflexivity|]. cbn [flat_map]. rewrite IH. f_equal. unfold option_octets, opt_entry_bytes. unfold short16 in S. rewrite len16_id by lia. reflexivity.
Qed.
Lemma four_octets a b f : a < 256 -> b < 256 -> f < 65536 -> unbe ([a; b] ++ be 2 f) = a * 16777216 + b * 65536 + f.
Proof. intros A B F. cbn [be app]. unfold unbe. cbn [fold_left]. pose proof (N.div_mod f 256 ltac:(discriminate)). pose proof (N.mod_small (f / 256) 256 ltac:(apply N.div_lt_upper_bound; lia)). lia. Qed.

(** What the library sees in an OPT record of others, wherever it stands: everything, except for payload sizes from 32768 on, of which bit 15 is lost, and the
    sizes 1 to 4, which are taken for classes. *)
Theorem C107_received_partial : forall (c : cfg) (size rcode version flags : N) (options : list (N * bytes)) (pre suf : bytes),
  edns_typed size rcode version flags options ->
  let d := pre ++ edns_octets size rcode version flags options ++ suf in
  exists (k : rclass) (m : opt),
    rr_try_from c (mkbuf d (length pre)) =
      (Ok (mkRR [] OPT (mdns c && (32768 <=? size)) k (rcode * 16777216 + version * 65536 + flags) (DOPT m)),
       mkbuf d (length pre + length (edns_octets size rcode version flags options))) /\
    NoDup (map fst m) /\ (forall x, In x m <-> last_of fst options x) /\
    rclass_code k = size mod 32768 /\ (k = UdpPayloadSize size <-> size < 32768 /\ ~ (1 <= size <= 4)).
Proof.
  intros c size rcode version flags options pre suf (Hs & Hr & Hv & Hf & Ho & Hl) d. pose proof (edns_options options Hl) as Sh.
  destruct (rclass_parse c size Hs) as (A & B & C). destruct (rr_class_field_parse c size) as [k fl] eqn:P. cbn [fst snd] in A, B, C.
  pose proof (opt_fold_last options) as (ND & LW). cbv zeta in ND, LW. set (m := fold_left (fun a x => opt_insert (fst x) (snd x) a) options []) in *.
  exists k, m. split; [|split; [exact ND|split; [exact LW|split; [exact A|]]]].
  - enough (R : reads pre suf (rr_try_from c) (edns_octets size rcode version flags options) (mkRR [] OPT (mdns c && (32768 <=? size)) k (rcode * 16777216 + version * 65536 + flags) (DOPT m))).
    { Local Transparent reads. exact R. }
    Local Opaque reads. unfold edns_octets, rr_try_from. change ([0] ++ ?x) with (fqdn_to_bytes [] ++ x).
    eapply reads_bind; [apply reads_fqdn; constructor|].
    eapply reads_bind; [apply (reads_u16_dom _ _ _ _ _ _ OPT (rtype_faithful c)); split; [exact (basic_exists c OPT eq_refl)|split; discriminate]|].
    eapply reads_bind; [apply reads_u16; exact Hs|].
    rewrite (app_assoc [rcode; version] (be 2 flags)). eapply reads_bind; [apply reads_bytes; reflexivity|].
    eapply reads_bind; [apply reads_u16; unfold U16; lia|].
    eapply reads_done.
    + apply reads_framed; [lia|]. rewrite edns_same by exact Sh. apply reads_pmap. apply reads_opt_gen; [exact Ho|exact Sh].
    + rewrite P, four_octets by assumption. cbn [fst snd]. rewrite C. reflexivity.
  - split.
    + intros ->. cbn [rclass_plain rclass_code] in *. exact B.
    + intros (L & N). apply rclass_code_inj; [exact B|split; [exact L|exact N]|]. rewrite A. apply N.mod_small, L.
Qed.
(** Sent in compressed form, in any packet whose other parts are well-formed: the packet arrives exactly if the payload size is below 32768 and none of 1 to 4. *)
Theorem C107_sent_partial : forall (c : cfg) (h : hasher) (p : packet) (before after : list rr) (size ttl : N) (m : opt) (bs suf : bytes),
  header_typed (p_header p) -> counts_of p = true_counts p -> Forall (question_ok c) (p_questions p) ->
  records_of p = before ++ mkRR [] OPT false (UdpPayloadSize size) ttl (DOPT m) :: after -> Forall (rr_ok c) before -> Forall (rr_ok c) after ->
  ttl < 4294967296 -> NoDup (map fst m) -> Forall (fun x => fst x < 65536 /\ N.of_nat (length (snd x)) <= 65535) m ->
  hash_separates h (packet_names p) -> packet_to_bytes_compressed c h p = Ok bs -> N.of_nat (length bs) <= 16384 ->
  byte_list (bs ++ suf) -> N.of_nat (length (bs ++ suf)) <= 9223372036854775807 ->
  (packet_try_from c (bs ++ suf) = Ok p <-> size < 32768 /\ ~ (1 <= size <= 4)).
Proof.
  intros c h p before after size ttl m bs suf H K Q R Fb Fa T ND Fm S E L B A. rewrite (C29_compressed_iff_partial c h p bs suf S E L B A). unfold packet_ok. rewrite R. split.
  - intros ((_ & _ & O) & _). apply Forall_app in O. destruct O as (_ & O). apply Forall_inv in O. destruct O as ((_ & _ & _ & P & _) & _). exact P.
  - intros P. split; [|exact K]. split; [exact H|]. split; [exact Q|]. apply Forall_app. split; [exact Fb|]. constructor; [|exact Fa].
    assert (D : decodable c OPT) by (split; [exact (basic_exists c OPT eq_refl)|split; discriminate]).
    split; [split; [constructor|split; [exact D|split; [reflexivity|split; [exact P|split; [exact T|reflexivity]]]]]|].
    split; [split; [exact (basic_exists c OPT eq_refl)|]|].
    + split; [exact ND|]. eapply Forall_impl; [|exact Fm]. cbv beta. unfold U16. tauto.
    + cbn [rdata_fits]. eapply Forall_impl; [|exact Fm]. cbv beta. unfold short16. tauto.
Qed.
(** In plain form no OPT record arrives: a message that ends with one without options is rejected, ... *)
Lemma opt_rejected c p bs before r : packet_to_bytes c p = Ok bs -> header_typed (p_header p) -> small_sections p -> byte_list bs -> Forall (question_ok c) (p_questions p) ->
  records_of p = before ++ [r] -> Forall (rr_plain_ok c) before -> fqdn_ok (rr_name r) -> rr_data r = DOPT [] -> forall p', packet_try_from c bs <> Ok p'.
Proof.
  intros E Hh Sm B Q Er Fb O D p' R. rewrite <- (app_nil_r bs) in R. assert (B' : byte_list (bs ++ [])) by (rewrite app_nil_r; exact B).
  destruct (record_place c p bs [] before r [] p' E Hh Sm B' Q Er Fb R) as (_ & rb & pre & rest & e & r' & after' & Eb & Dx & Nr & _ & A).
  rewrite (Nr eq_refl), !app_nil_r in Dx. rewrite app_nil_r, Dx in A. rewrite Dx in B.
  assert (T : rdata_typed c (rr_data r)) by (rewrite D; split; [exact (basic_exists c OPT eq_refl)|split; constructor]).
  destruct (plain_parts c r rb T Eb) as (k & db & Ed & Ew & Sz). rewrite D in Sz, Ed. cbn [size_error length] in Sz. injection Ed as <-. cbn [length] in Sz.
  assert (K : len16 k = N.of_nat k) by (apply len16_id; lia). rewrite <- (app_nil_r rb) in B, A.
  destruct (record_frame c r r' rb pre [] (len16 k) [] e O Ew (len16_lt k) B A) as (Dy & Ee & Le & _).
  cbv zeta in *. rewrite Dy in Le. rewrite K in *. rewrite Nnat.Nat2N.id in Ee. rewrite Ee, !app_length, !be_length in Le. cbn [length] in *. lia.
Qed.
Theorem C107_plain_refuted : forall (c : cfg) (p : packet) (bs : bytes) (before : list rr) (size ttl : N),
  header_typed (p_header p) -> Forall (question_ok c) (p_questions p) -> small_sections p ->
  records_of p = before ++ [mkRR [] OPT false (UdpPayloadSize size) ttl (DOPT [])] -> Forall (rr_plain_ok c) before ->
  packet_to_bytes c p = Ok bs -> byte_list bs -> forall p', packet_try_from c bs <> Ok p'.
Proof. intros c p bs before size ttl H Q S R F E B. apply (opt_rejected c p bs before _ E H S B Q R F); [constructor|reflexivity]. Qed.
(** ... and in any other plain message that is accepted the record is another one. *)
Theorem C107_options_refuted : forall (c : cfg) (p p' : packet) (bs suf : bytes) (before after : list rr) (size ttl : N) (m : opt),
  header_typed (p_header p) -> Forall (question_ok c) (p_questions p) -> small_sections p ->
  records_of p = before ++ mkRR [] OPT false (UdpPayloadSize size) ttl (DOPT m) :: after -> Forall (rr_plain_ok c) before ->
  size < 32768 /\ ~ (1 <= size <= 4) -> ttl < 4294967296 -> NoDup (map fst m) -> Forall (fun x => fst x < 65536) m ->
  N.of_nat (length (flat_map option_octets m)) <= 65535 ->
  packet_to_bytes c p = Ok bs -> byte_list (bs ++ suf) -> packet_try_from c (bs ++ suf) = Ok p' ->
  exists r after', records_of p' = before ++ r :: after' /\ r <> mkRR [] OPT false (UdpPayloadSize size) ttl (DOPT m).
Proof.
  intros c p p' bs suf before after size ttl m H Q S R F P T ND Fm L E B G. pose proof (edns_options m L) as Sh.
  apply (C28_changed_refuted c p p' bs suf before after _ H Q S R F); try assumption; [|exact I|].
  - assert (D : decodable c OPT) by (split; [exact (basic_exists c OPT eq_refl)|split; discriminate]).
    split; [split; [constructor|split; [exact D|split; [reflexivity|split; [exact P|split; [exact T|reflexivity]]]]]|].
    split; [split; [exact (basic_exists c OPT eq_refl)|split; assumption]|exact Sh].
  - intros db Eq. cbn [rr_data rdata_to_bytes] in Eq. apply Ok_inj in Eq. subst db. rewrite <- edns_same by exact Sh. exact L.
Qed.
(** 65535, as RFC 6891 allows, is seen as 32767, and 32768 as 0. *)
Theorem C107_size_refuted : forall (c : cfg) (size : N) (pre suf : bytes), 32768 <= size < 65536 ->
  let d := pre ++ edns_octets size 0 0 0 [] ++ suf in
  exists (r : rr) (b : buf), rr_try_from c (mkbuf d (length pre)) = (Ok r, b) /\ rclass_code (rr_class r) = size - 32768.
Proof.
  intros c size pre suf (A & B) d. destruct (C107_received_partial c size 0 0 0 [] pre suf) as (k & m & E & _ & _ & K & _).
  { repeat split; try lia; try constructor. cbn. lia. }
  cbv zeta in E. eexists. eexists. split; [exact E|]. cbn [rr_class]. rewrite K. symmetry. apply (N.mod_unique _ _ 1); lia.
Qed.

Example C107_ex_received : edns_typed 1232 0 0 32768 [(10, [1; 2; 3; 4; 5; 6; 7; 8]); (12, [])].
Proof. repeat split; try lia; [repeat constructor|vm_compute; discriminate]. Qed.
Definition edns_query (size : N) (m : opt) : packet := mkPacket (mkheader 5 (hflags (header_new_query 0 true)) 1 0 0 1) [ex_question] [] [] [mkRR [] OPT false (UdpPayloadSize size) 32768 (DOPT m)].
Example C107_ex_sent : let p := edns_query 1232 [(10, [1; 2; 3])] in
  header_typed (p_header p) /\ counts_of p = true_counts p /\ Forall (question_ok ex_cfg) (p_questions p) /\
  hash_separates ex_hash (packet_names p) /\ exists bs, packet_to_bytes_compressed ex_cfg ex_hash p = Ok bs /\ N.of_nat (length bs) <= 16384 /\ byte_list (bs ++ [7]).
Proof.
  cbv zeta. split; [repeat split|]. split; [reflexivity|]. split; [repeat constructor; apply C22_ex|]. split; [apply separates_b_true; vm_compute; reflexivity|].
  eexists. split; [vm_compute; reflexivity|]. split; [vm_compute; discriminate|repeat constructor].
Qed.
Example C107_ex_plain : let p := edns_query 1232 [] in small_sections p /\ exists bs, packet_to_bytes ex_cfg p = Ok bs /\ byte_list bs.
Proof. cbv zeta. split; [repeat split; discriminate|]. eexists. split; [vm_compute; reflexivity|repeat constructor]. Qed.
(** A message from which an option is lost. *)
Example C107_ex_lost : let p := edns_query 1232 [(3, []); (10, [1; 2])] in small_sections p /\ exists bs, packet_to_bytes ex_cfg p = Ok bs /\ byte_list bs /\
  packet_try_from ex_cfg bs = Ok (edns_query 1232 [(3, [])]).
Proof. cbv zeta. split; [repeat split; discriminate|]. eexists. split; [vm_compute; reflexivity|]. split; [repeat constructor|vm_compute; reflexivity]. Qed.
Print Assumptions C107_received_partial.
Print Assumptions C107_sent_partial.
Print Assumptions C107_plain_refuted.
Print Assumptions C107_options_refuted.
Print Assumptions C107_size_refuted.
