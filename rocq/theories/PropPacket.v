(** * Properties C28 - C37, C46, C47, C49: packets *)
From Verif Require Import Base Utf8 Buffer Fqdn Header Types RDataBasic Bitmap Svcb RDataSec RData Packet BaseFacts BufferFacts NameSpec
  FqdnFacts CompressSpec ChunkFacts CodeSpec HeaderSpec RDataSpec RDataFacts RecordSpec ParseFacts WireSpec WireFacts RecordProps
  PacketFacts SvcbParse ApiSpec PacketProps FailSpec FailFacts MdnsFacts PropName PropRecord.
From Coq Require Import Lia ZifyNat ZifyN.

(** A reply with one question, an SOA and an address as answers and a mail exchanger as additional. *)
Definition ex_packet : packet :=
  mkPacket (mkheader 4660 (hflags (header_new_reply 0 StandardQuery)) 1 2 0 1) [ex_question]
           [ex_rr; mkRR ex_ftp A false CCH 60 (DA 16909060)] []
           [mkRR ex_www MX false CIN 5 (DMX (mkMx 10 ex_ftp))].
Definition ex_bytes (r : res bytes) : bytes := match r with Ok b => b | _ => [] end.
Lemma ex_packet_plain : packet_plain_ok ex_cfg ex_packet.
Proof.
  split; [repeat split|]. split; [repeat constructor; apply C22_ex|].
  repeat (apply Forall_cons); try apply Forall_nil; (split; [split|]).
  all: try (split; [exact I|intros bs E; injection E as <-; vm_compute; discriminate]).
  all: try (repeat split; try discriminate; try reflexivity; unfold fqdn_ok, label_ok; repeat constructor; cbn; lia).
Qed.
Lemma plain_is_ok c p : packet_plain_ok c p -> packet_ok c p.
Proof. intros (H & Q & R). split; [exact H|]. split; [exact Q|]. eapply Forall_impl; [|exact R]. intros r X. apply X. Qed.
Lemma ex_packet_separates : hash_separates ex_hash (packet_names ex_packet).
Proof. apply separates_b_true. reflexivity. Qed.
(** A packet whose only answer is a CAA record: its plain form has a wrong RDLENGTH. *)
Definition caa_packet : packet :=
  mkPacket (mkheader 1 (hflags (header_new_reply 0 StandardQuery)) 0 1 0 0) [] [mkRR [] CAA false CIN 60 ex_caa] [] [].
Lemma caa_packet_ok c : packet_ok c caa_packet.
Proof.
  split; [repeat split|]. split; [constructor|]. repeat constructor; try discriminate; try (apply basic_exists; reflexivity); try reflexivity; cbn; unfold short; cbn; lia.
Qed.

(** ** C28: false for packets that contain OPT, RRSIG, CAA or SVCB records (see C24, C25) *)
Theorem C28_plain_refuted : forall c : cfg, exists (p : packet) (bs : bytes),
  packet_ok c p /\ counts_of p = true_counts p /\ packet_to_bytes c p = Ok bs /\ packet_try_from c bs <> Ok p.
Proof.
  intros c. exists caa_packet. eexists. split; [apply caa_packet_ok|]. split; [reflexivity|]. split.
  - destruct c as [[|] [|] o]; reflexivity.
  - destruct c as [[|] [|] o]; vm_compute; discriminate.
Qed.
Theorem C28_plain_roundtrip_partial : forall (c : cfg) (p : packet), packet_plain_ok c p -> small_sections p ->
  exists bs, packet_to_bytes c p = Ok bs /\
    forall suf, packet_try_from c (bs ++ suf) =
      Ok (mkPacket (mkheader (id (p_header p)) (hflags (p_header p))
                     (N.of_nat (length (p_questions p))) (N.of_nat (length (p_answers p)))
                     (N.of_nat (length (p_authorities p))) (N.of_nat (length (p_additionals p))))
                   (p_questions p) (p_answers p) (p_authorities p) (p_additionals p)).
Proof. exact packet_roundtrip. Qed.
Example C28_ex : packet_plain_ok ex_cfg ex_packet /\ small_sections ex_packet /\
  packet_try_from ex_cfg (ex_bytes (packet_to_bytes ex_cfg ex_packet)) = Ok ex_packet.
Proof. split; [exact ex_packet_plain|]. split; [repeat split; discriminate|vm_compute; reflexivity]. Qed.
Print Assumptions C28_plain_refuted.
Print Assumptions C28_plain_roundtrip_partial.

(** ** C29: false for SSHFP records only (they never read back, see C23) *)
Theorem C29_sshfp_refuted : forall (c : cfg) (h : hasher), exists (p : packet) (bs : bytes),
  packet_typed c p /\ Forall (rr_head_ok c) (records_of p) /\ counts_of p = true_counts p /\ hash_separates h (packet_names p) /\
  packet_to_bytes_compressed c h p = Ok bs /\ N.of_nat (length bs) <= 16384 /\ packet_try_from c bs <> Ok p.
Proof.
  intros c h. exists (mkPacket (mkheader 1 (hflags (header_new_reply 0 StandardQuery)) 0 1 0 0) []
    [mkRR [] SSHFP false CIN 60 (DSSHFP (mkSshfp AlgRSA FpSHA1 [2; 171; 205]))] [] []). eexists.
  split; [repeat constructor; cbn; try lia; apply basic_exists; reflexivity|].
  split; [repeat constructor; try discriminate; try (apply basic_exists; reflexivity); reflexivity|].
  split; [reflexivity|]. split.
  { intros t t' T T'. cbn in T, T'. exfalso. destruct T as (T & f & i & [<-|[]] & E). destruct i; [apply T; symmetry; exact E|discriminate]. }
  split; [destruct c as [[|] [|] o]; reflexivity|].
  split; [destruct c as [[|] [|] o]; vm_compute; discriminate|].
  destruct c as [[|] [|] o]; vm_compute; discriminate.
Qed.
Theorem C29_compressed_roundtrip_partial : forall (c : cfg) (h : hasher) (p : packet) (bs : bytes),
  packet_ok c p -> counts_of p = true_counts p -> hash_separates h (packet_names p) ->
  packet_to_bytes_compressed c h p = Ok bs -> N.of_nat (length bs) <= 16384 ->
  forall suf, packet_try_from c (bs ++ suf) = Ok p.
Proof. exact packet_compressed. Qed.
Example C29_ex : packet_ok ex_cfg ex_packet /\ counts_of ex_packet = true_counts ex_packet /\
  hash_separates ex_hash (packet_names ex_packet) /\
  exists bs, packet_to_bytes_compressed ex_cfg ex_hash ex_packet = Ok bs /\ length bs = 105%nat /\ packet_try_from ex_cfg bs = Ok ex_packet.
Proof.
  split; [apply plain_is_ok, ex_packet_plain|]. split; [reflexivity|]. split; [exact ex_packet_separates|].
  eexists. split; [reflexivity|]. split; vm_compute; reflexivity.
Qed.
(** The compressed form does carry the records the plain form spoils. *)
Example C29_ex_caa : packet_ok ex_cfg caa_packet /\
  packet_try_from ex_cfg (ex_bytes (packet_to_bytes_compressed ex_cfg ex_hash caa_packet)) = Ok caa_packet.
Proof. split; [apply caa_packet_ok|vm_compute; reflexivity]. Qed.
Print Assumptions C29_sshfp_refuted.
Print Assumptions C29_compressed_roundtrip_partial.

(** ** C30: false where the plain form is wrong *)
Theorem C30_same_refuted : forall c : cfg, exists (p : packet) (pb cb : bytes),
  packet_ok c p /\ counts_of p = true_counts p /\ packet_to_bytes c p = Ok pb /\ packet_to_bytes_compressed c ex_hash p = Ok cb /\
  packet_try_from c pb <> packet_try_from c cb.
Proof.
  intros c. exists caa_packet. do 2 eexists. split; [apply caa_packet_ok|]. split; [reflexivity|].
  split; [destruct c as [[|] [|] o]; reflexivity|]. split; [destruct c as [[|] [|] o]; reflexivity|].
  destruct c as [[|] [|] o]; vm_compute; discriminate.
Qed.
Theorem C30_same_partial : forall (c : cfg) (h : hasher) (p : packet) (cb : bytes),
  packet_plain_ok c p -> counts_of p = true_counts p -> hash_separates h (packet_names p) ->
  packet_to_bytes_compressed c h p = Ok cb -> N.of_nat (length cb) <= 16384 ->
  exists pb, packet_to_bytes c p = Ok pb /\ packet_try_from c pb = packet_try_from c cb /\ packet_try_from c pb = Ok p /\
             (length cb <= length pb)%nat.
Proof.
  intros c h p cb P K S E L. destruct (packet_roundtrip c p P (counts_small p (proj1 P) K)) as (pb & Ep & F).
  exists pb. split; [exact Ep|]. specialize (F []). rewrite app_nil_r, (recount_same p K) in F.
  pose proof (packet_compressed c h p cb (plain_is_ok c p P) K S E L []) as G. rewrite app_nil_r in G.
  split; [congruence|]. split; [exact F|]. apply (packet_not_longer c h p); try assumption.
  destruct P as (_ & Q & R). unfold packet_names. apply Forall_app. split.
  - apply Forall_map. eapply Forall_impl; [|exact Q]. intros q X. apply fqdn_ok_proper, X.
  - apply Forall_flat_map. eapply Forall_impl; [|exact R]. intros r X. unfold rr_names. constructor; [apply fqdn_ok_proper, X|].
    eapply Forall_impl; [exact fqdn_ok_proper|]. destruct X as ((_ & _ & X) & _). destruct (rr_data r); cbn in X |- *; repeat constructor; apply X.
Qed.
(** The length, for every packet whose names have no empty labels, well-formed or not. *)
Theorem C30_not_longer : forall (c : cfg) (h : hasher) (p : packet) (cb pb : bytes),
  Forall (Forall (fun l => nonempty l = true)) (packet_names p) ->
  packet_to_bytes_compressed c h p = Ok cb -> packet_to_bytes c p = Ok pb -> (length cb <= length pb)%nat.
Proof. exact packet_not_longer. Qed.
Example C30_ex : length (ex_bytes (packet_to_bytes ex_cfg ex_packet)) = 191%nat /\
  length (ex_bytes (packet_to_bytes_compressed ex_cfg ex_hash ex_packet)) = 105%nat /\
  Forall (Forall (fun l => nonempty l = true)) (packet_names ex_packet).
Proof. split; [vm_compute; reflexivity|]. split; [vm_compute; reflexivity|repeat constructor]. Qed.
Print Assumptions C30_same_refuted.
Print Assumptions C30_same_partial.
Print Assumptions C30_not_longer.

(** ** C31: false by the sum of the errors of C24 *)
Theorem C31_byte_size_refuted : forall c : cfg, exists (p : packet) (bs : bytes) (n : nat),
  packet_ok c p /\ packet_to_bytes c p = Ok bs /\ packet_byte_size c p = Ok n /\ n <> length bs.
Proof.
  intros c. exists caa_packet. do 2 eexists. split; [apply caa_packet_ok|].
  split; [destruct c as [[|] [|] o]; reflexivity|]. split; [destruct c as [[|] [|] o]; reflexivity|].
  destruct c as [[|] [|] o]; vm_compute; discriminate.
Qed.
Theorem C31_byte_size_partial : forall (c : cfg) (p : packet) (bs : bytes),
  Forall (fun r => rdata_typed c (rr_data r)) (records_of p) -> packet_to_bytes c p = Ok bs ->
  exists n, packet_byte_size c p = Ok n /\
    Z.of_nat n = (Z.of_nat (length bs) + fold_right (fun r z => size_error (rr_data r) + z) 0 (records_of p))%Z.
Proof. exact packet_size. Qed.
Example C31_ex : Forall (fun r => rdata_typed ex_cfg (rr_data r)) (records_of ex_packet) /\
  packet_byte_size ex_cfg ex_packet = Ok 191%nat /\ packet_byte_size ex_cfg caa_packet = Ok 27%nat /\
  length (ex_bytes (packet_to_bytes ex_cfg caa_packet)) = 32%nat.
Proof.
  split; [apply plain_typed, ex_packet_plain|]. vm_compute. repeat split.
Qed.
Print Assumptions C31_byte_size_refuted.
Print Assumptions C31_byte_size_partial.

(** ** C32: false for [with_questions], [take_authorities], [set_header] and [questions_mut] *)
Theorem C32_with_questions_refuted : forall (i : N) (rd : bool) (q : question) (qs : list question),
  counts_of (create (WithQuestions i rd (q :: qs))) <> true_counts (create (WithQuestions i rd (q :: qs))).
Proof. intros. unfold counts_of, true_counts. cbn [create packet_with_questions p_questions p_header header_new_query ques_count length]. intros E. injection E as E. lia. Qed.
(** Whenever there is an authority, or an answer counted, taking the authorities spoils the counts. *)
Theorem C32_take_authorities_refuted : forall p : packet, counts_of p = true_counts p ->
  p_authorities p <> [] \/ p_answers p <> [] -> counts_of (snd (take_authorities p)) <> true_counts (snd (take_authorities p)).
Proof.
  intros [[i f q a n d] qs an au ad] E H E'. unfold counts_of, true_counts in *. cbn in E, H, E'. injection E as _ E1 E2 _. injection E' as E3 E4.
  destruct H as [H|H]; [destruct au|destruct an]; try (apply H; reflexivity); cbn in *; lia.
Qed.
Theorem C32_set_header_refuted : forall c : cfg, exists (p : packet) (h : header), history c [AddQuestion ex_question; SetHeader h] (create Default) = Ok p /\
  counts_of p <> true_counts p.
Proof. intros c. eexists. exists header_default. split; [reflexivity|vm_compute; discriminate]. Qed.
Theorem C32_questions_mut_refuted : forall c : cfg, exists p, history c [QuestionsMut [ex_question]] (create Default) = Ok p /\
  counts_of p <> true_counts p.
Proof. intros c. eexists. split; [reflexivity|vm_compute; discriminate]. Qed.
(** All other histories keep the counts: modulo 65536 whatever happens; exactly, and without panicking,
    as long as no section ever exceeds 65535 entries. *)
Theorem C32_counts_partial : forall (c : cfg) (o : origin) (ks : list call), starts_counted o -> Forall keeps_counts ks ->
  (forall p, history c ks (create o) = Ok p -> counts_modulo p) /\
  (always_fits ks (sections_of (create o)) -> exists p, history c ks (create o) = Ok p /\ counts_of p = true_counts p).
Proof.
  intros c o ks O K. split.
  - intros p. apply history_counts; [exact K|apply create_counts, O].
  - apply history_total; [exact K|apply create_counts, O].
Qed.
(** What the sections contain after any history at all, and what the [take_] functions hand out. *)
Theorem C32_sections : forall (c : cfg) (o : origin) (ks : list call) (p : packet), history c ks (create o) = Ok p ->
  same_sections (sections_of p) (fold_left (fun st k => meaning k st) ks (sections_of (create o))).
Proof. intros c o ks p. apply history_meaning. Qed.
Theorem C32_take : forall p : packet, fst (take_questions p) = p_questions p /\ fst (take_answers p) = p_answers p /\
  fst (take_authorities p) = p_authorities p /\ fst (take_additionals p) = p_additionals p.
Proof. repeat split. Qed.
Definition ex_history : list call :=
  [AddQuestion ex_question; AddRecord Answers ex_rr; AddRecord Answers ex_rr; SetRecords Authorities [ex_rr]; SetId 7;
   TakeRecords Answers; AddRecord Additionals ex_rr; TakeQuestions].
Example C32_ex : starts_counted (NewQuery 1 true) /\ Forall keeps_counts ex_history /\
  always_fits ex_history (sections_of (create (NewQuery 1 true))) /\
  exists p, history ex_cfg ex_history (create (NewQuery 1 true)) = Ok p /\ counts_of p = (0, 0, 1, 1) /\ true_counts p = (0, 0, 1, 1).
Proof.
  split; [exact I|]. split; [repeat constructor|]. split.
  - cbn. unfold fits_counts. cbn. repeat split; try lia; intros []; cbn; lia.
  - eexists. repeat split.
Qed.
Print Assumptions C32_with_questions_refuted.
Print Assumptions C32_take_authorities_refuted.
Print Assumptions C32_set_header_refuted.
Print Assumptions C32_questions_mut_refuted.
Print Assumptions C32_counts_partial.
Print Assumptions C32_sections.
Print Assumptions C32_take.

(** ** C33: the plain writer counts; the compressed writer repeats the header *)
Theorem C33_plain : forall (c : cfg) (p : packet) (bs : bytes), header_typed (p_header p) -> packet_to_bytes c p = Ok bs ->
  v_qd (fields_of bs) = N.of_nat (length (p_questions p)) mod 65536 /\
  v_an (fields_of bs) = N.of_nat (length (p_answers p)) mod 65536 /\
  v_ns (fields_of bs) = N.of_nat (length (p_authorities p)) mod 65536 /\
  v_ar (fields_of bs) = N.of_nat (length (p_additionals p)) mod 65536.
Proof. intros c p bs H E. rewrite (plain_counts c p bs H E). repeat split. Qed.
Theorem C33_compressed_refuted : forall (c : cfg) (h : hasher), exists (p : packet) (bs : bytes),
  header_typed (p_header p) /\ packet_to_bytes_compressed c h p = Ok bs /\
  v_qd (fields_of bs) <> N.of_nat (length (p_questions p)) mod 65536.
Proof.
  intros c h. exists (create (WithQuestions 1 true [mkQ [] QT_ANY QIN false])). eexists.
  split; [repeat split|]. split; [reflexivity|]. destruct c as [[|] [|] o]; vm_compute; discriminate.
Qed.
Theorem C33_compressed_partial : forall (c : cfg) (h : hasher) (p : packet) (bs : bytes), header_typed (p_header p) ->
  packet_to_bytes_compressed c h p = Ok bs ->
  (v_qd (fields_of bs), v_an (fields_of bs), v_ns (fields_of bs), v_ar (fields_of bs)) = counts_of p /\
  (counts_of p = true_counts p ->
   v_qd (fields_of bs) = N.of_nat (length (p_questions p)) /\ v_an (fields_of bs) = N.of_nat (length (p_answers p)) /\
   v_ns (fields_of bs) = N.of_nat (length (p_authorities p)) /\ v_ar (fields_of bs) = N.of_nat (length (p_additionals p))).
Proof.
  intros c h p bs H E. rewrite (compressed_counts c h p bs H E). split; [reflexivity|].
  unfold counts_of, true_counts. intros K. injection K as K1 K2 K3 K4. cbn [view v_qd v_an v_ns v_ar]. auto.
Qed.
(** The rest of the header is the packet's in both forms. *)
Theorem C33_other_fields : forall (c : cfg) (h : hasher) (p : packet) (pb cb : bytes), header_typed (p_header p) ->
  packet_to_bytes c p = Ok pb -> packet_to_bytes_compressed c h p = Ok cb -> firstn 4 pb = firstn 4 (header_to_bytes (p_header p)) /\
  firstn 12 cb = header_to_bytes (p_header p).
Proof. exact header_parts. Qed.
Example C33_ex : header_typed (p_header ex_packet) /\
  firstn 12 (ex_bytes (packet_to_bytes ex_cfg (packet_set_header ex_packet (mkheader 4660 (hflags (p_header ex_packet)) 9 9 9 9)))) =
  [18; 52; 128; 0; 0; 1; 0; 2; 0; 0; 0; 1].
Proof. split; [repeat split|vm_compute; reflexivity]. Qed.
Print Assumptions C33_plain.
Print Assumptions C33_compressed_refuted.
Print Assumptions C33_compressed_partial.
Print Assumptions C33_other_fields.

(** ** C34 *)
Theorem C34_layout : forall (c : cfg) (d : bytes) (p : packet), byte_list d ->
  (packet_try_from c d = Ok p <-> exists e, packet_at c d p e).
Proof. exact packet_iff. Qed.
Theorem C34_cursor : forall (c : cfg) (d : bytes) (p : packet) (b : buf), byte_list d ->
  (packet_try_from_buf c (buf_from d) = (Ok p, b) <-> exists e, packet_at c d p e /\ b = mkbuf d e).
Proof.
  intros c d p b B. split; [apply packet_got, B|]. intros (e & H & ->). apply packet_read, H.
Qed.
Example C34_ex : byte_list (ex_bytes (packet_to_bytes ex_cfg ex_packet)) /\
  packet_at ex_cfg (ex_bytes (packet_to_bytes ex_cfg ex_packet)) ex_packet 191.
Proof.
  assert (B : byte_list (ex_bytes (packet_to_bytes ex_cfg ex_packet))) by (vm_compute; repeat constructor).
  split; [exact B|]. destruct (proj1 (C34_cursor ex_cfg _ ex_packet (mkbuf (ex_bytes (packet_to_bytes ex_cfg ex_packet)) 191) B)) as (e & H & E).
  - vm_compute. reflexivity.
  - injection E as <-. exact H.
Qed.
Print Assumptions C34_layout.
Print Assumptions C34_cursor.

(** ** C35 *)
Theorem C35_trailing : forall (c : cfg) (d junk : bytes) (p : packet), byte_list d -> packet_try_from c d = Ok p ->
  packet_try_from c (d ++ junk) = Ok p.
Proof.
  intros c d junk p B E. apply (packet_iff c d p B) in E. destruct E as [e H]. apply (packet_at_ext c d junk) in H.
  unfold packet_try_from. rewrite (packet_read _ _ _ _ H). reflexivity.
Qed.
(** The cursor stops where the packet ends, whatever follows. *)
Theorem C35_cursor : forall (c : cfg) (d junk : bytes) (p : packet) (b : buf), byte_list d ->
  packet_try_from_buf c (buf_from d) = (Ok p, b) ->
  packet_try_from_buf c (buf_from (d ++ junk)) = (Ok p, mkbuf (d ++ junk) (pos b)).
Proof.
  intros c d junk p b B E. apply (packet_got c d p b B) in E. destruct E as (e & H & ->). apply packet_read, packet_at_ext, H.
Qed.
Example C35_ex : packet_try_from ex_cfg (ex_bytes (packet_to_bytes_compressed ex_cfg ex_hash ex_packet) ++ [192; 192; 5]) = Ok ex_packet.
Proof. vm_compute. reflexivity. Qed.
Print Assumptions C35_trailing.
Print Assumptions C35_cursor.

(** ** C36: false; the messages on which it fails are characterised *)
Definition one_question : bytes := [0; 1; 0; 0; 0; 1; 0; 0; 0; 0; 0; 0].
Theorem C36_panic_refuted : forall c : cfg, packet_try_from c (one_question ++ [1]) = Panic.
Proof. intros [[|] [|] o]; reflexivity. Qed.
Theorem C36_loop_refuted : forall c : cfg, packet_try_from c (one_question ++ [192; 12]) = Diverge.
Proof.
  intros c. change (fails Loops (packet_try_from c (one_question ++ [192; 12]))). apply packet_fails_iff; [repeat constructor|]. split; [cbn; lia|].
  left. exists [], 12%nat. split; [cbn; lia|]. split; [constructor|]. apply self_pointer. exists 192, 12. cbn. repeat split; try lia; discriminate.
Qed.
(** Exactly the messages of [packet_fails]: an entry reached in its turn whose name, or data, fails. *)
Theorem C36_fails_iff_partial : forall (f : failure) (c : cfg) (d : bytes), byte_list d ->
  (fails f (packet_try_from c d) <-> packet_fails f c d).
Proof. exact packet_fails_iff. Qed.
Theorem C36_returns_iff_partial : forall (c : cfg) (d : bytes), byte_list d ->
  ((exists p, packet_try_from c d = Ok p) \/ (exists e, packet_try_from c d = Err e) <->
   ~ packet_fails Panics c d /\ ~ packet_fails Loops c d).
Proof.
  intros c d B. rewrite <- !packet_fails_iff by exact B. cbn [fails]. destruct (packet_try_from c d); split; intros H; try (split; discriminate); eauto.
  - destruct H as [[? H]|[? H]]; discriminate.
  - destruct H as [H _]. destruct (H eq_refl).
  - destruct H as [[? H]|[? H]]; discriminate.
  - destruct H as [_ H]. destruct (H eq_refl).
Qed.
(** In the data of a record only a bad name in one of the places of [name_place], or, with overflow checks,
    one of the overflows of [overflow_in] can be the cause. *)
Theorem C36_data_causes_partial : forall (f : failure) (c : cfg) (t : rtype) (w : bytes) (q : nat), byte_list w -> (q <= length w)%nat ->
  fails f (fst (rdata_from c t (mkbuf w q))) ->
  (exists p, name_place w t q p /\ (q <= p <= length w)%nat /\ bad_name f w p) \/
  f = Panics /\ ovf c = true /\ overflow_in w t q.
Proof. exact rdata_fails. Qed.
(** Conversely a bad name that data starts with, up to numbers in front of it, always fails. *)
Theorem C36_data_fails_partial : forall (f : failure) (c : cfg) (t : rtype) (w : bytes) (q o : nat), byte_list w ->
  name_offset t = Some o -> (q + o <= length w)%nat -> bad_name f w (q + o) -> fails f (fst (rdata_from c t (mkbuf w q))).
Proof. exact rdata_fails_first. Qed.
(** So data of all the other types always returns. *)
Theorem C36_data_returns : forall (c : cfg) (t : rtype) (w : bytes) (q : nat), byte_list w -> (q <= length w)%nat ->
  ~ In t [NS; CNAME; PTR; SOA; MINFO; NSEC; TKEY; TSIG; MX; SVCB; SRV; RRSIG; NAPTR; IPSECKEY; HIP; CSYNC] ->
  (exists d, fst (rdata_from c t (mkbuf w q)) = Ok d) \/ (exists e, fst (rdata_from c t (mkbuf w q)) = Err e).
Proof. exact nameless_returns. Qed.
Example C36_ex : byte_list (one_question ++ [1]) /\ packet_fails Panics ex_cfg (one_question ++ [1]) /\
  ~ packet_fails Panics ex_cfg (one_question ++ [0; 0; 1; 0; 1]) /\ ~ packet_fails Loops ex_cfg (one_question ++ [0; 0; 1; 0; 1]).
Proof.
  split; [repeat constructor|]. split; [apply packet_fails_iff; [repeat constructor|apply C36_panic_refuted]|].
  apply C36_returns_iff_partial; [repeat constructor|]. left. eexists. vm_compute. reflexivity.
Qed.
(** Both kinds of cause in record data: an NS record that points to itself; a bitmap with type 65536. *)
Example C36_ex_data : fails Loops (fst (rdata_from ex_cfg NS (mkbuf [192; 0] 0))) /\
  fails Panics (fst (rdata_from ex_cfg0 CSYNC (mkbuf ([0; 0; 0; 0; 0; 0; 255; 33] ++ repeat 0 32 ++ [128]) 0))).
Proof.
  split; [apply (rdata_fails_first Loops ex_cfg NS [192; 0] 0 0); [repeat constructor|reflexivity|cbn; lia|apply self_pointer; exists 192, 0; cbn; repeat split; try lia; discriminate]|vm_compute; reflexivity].
Qed.
Print Assumptions C36_panic_refuted.
Print Assumptions C36_loop_refuted.
Print Assumptions C36_fails_iff_partial.
Print Assumptions C36_returns_iff_partial.
Print Assumptions C36_data_causes_partial.
Print Assumptions C36_data_fails_partial.
Print Assumptions C36_data_returns.

(** ** C37: false for the plain form of C28, for SSHFP, and for text that grows when it is decoded *)
Theorem C37_plain_refuted : forall c : cfg, exists (d : bytes) (p : packet) (bs : bytes),
  packet_try_from c d = Ok p /\ packet_to_bytes c p = Ok bs /\ packet_try_from c bs <> Ok p.
Proof.
  intros c. exists (ex_bytes (packet_to_bytes_compressed c ex_hash caa_packet)), caa_packet. eexists.
  split; [destruct c as [[|] [|] o]; vm_compute; reflexivity|].
  split; [destruct c as [[|] [|] o]; reflexivity|destruct c as [[|] [|] o]; vm_compute; discriminate].
Qed.
Theorem C37_compressed_refuted : forall (c : cfg) (h : hasher), exists (d : bytes) (p : packet) (bs : bytes),
  packet_try_from c d = Ok p /\ packet_to_bytes_compressed c h p = Ok bs /\ packet_try_from c bs <> Ok p.
Proof.
  intros c h. exists ([0; 1; 128; 0; 0; 0; 0; 1; 0; 0; 0; 0] ++ [0; 0; 44; 0; 1; 0; 0; 0; 60; 0; 5; 1; 1; 2; 171; 205]).
  do 2 eexists. split; [destruct c as [[|] [|] o]; vm_compute; reflexivity|].
  split; [destruct c as [[|] [|] o]; reflexivity|destruct c as [[|] [|] o]; vm_compute; discriminate].
Qed.
(** A parsed packet can always be serialised ... *)
Theorem C37_serialises : forall (c : cfg) (d : bytes) (p : packet), byte_list d -> allocatable d -> packet_try_from c d = Ok p ->
  (exists bs, packet_to_bytes c p = Ok bs) /\ forall h, exists bs, packet_to_bytes_compressed c h p = Ok bs.
Proof. exact parsed_serialises. Qed.
(** ... and comes back if its data is of the kinds that do. *)
Theorem C37_roundtrip_partial : forall (c : cfg) (d : bytes) (p : packet), byte_list d -> allocatable d -> packet_try_from c d = Ok p ->
  Forall (fun r => keeps_data (rr_data r)) (records_of p) ->
  (Forall (fun r => size_exact (rr_data r) /\ forall db, rdata_to_bytes c (rr_data r) = Ok db -> N.of_nat (length db) <= 65535) (records_of p) ->
   exists bs, packet_to_bytes c p = Ok bs /\ packet_try_from c bs = Ok p) /\
  (forall h, hash_separates h (packet_names p) ->
   exists bs, packet_to_bytes_compressed c h p = Ok bs /\ (N.of_nat (length bs) <= 16384 -> packet_try_from c bs = Ok p)).
Proof. exact parsed_roundtrip. Qed.
Example C37_ex : let d := ex_bytes (packet_to_bytes_compressed ex_cfg ex_hash ex_packet) in
  byte_list d /\ allocatable d /\ packet_try_from ex_cfg d = Ok ex_packet /\
  Forall (fun r => keeps_data (rr_data r)) (records_of ex_packet) /\
  Forall (fun r => size_exact (rr_data r) /\ forall db, rdata_to_bytes ex_cfg (rr_data r) = Ok db -> N.of_nat (length db) <= 65535) (records_of ex_packet) /\
  hash_separates ex_hash (packet_names ex_packet).
Proof.
  split; [vm_compute; repeat constructor|]. split; [vm_compute; discriminate|]. split; [vm_compute; reflexivity|].
  split; [repeat constructor|]. split; [|exact ex_packet_separates].
  eapply Forall_impl; [|apply ex_packet_plain]. intros r H. apply H.
Qed.
Print Assumptions C37_plain_refuted.
Print Assumptions C37_compressed_refuted.
Print Assumptions C37_serialises.
Print Assumptions C37_roundtrip_partial.

(** ** C46 *)
Theorem C46_question_parsed : forall (c : cfg) (d : bytes) (p : nat) (q : question) (b : buf), byte_list d -> (p <= length d)%nat ->
  question_try_from c (mkbuf d p) = (Ok q, b) ->
  exists k v, name_at d 191 p (q_name q) k /\ u16_at d (k + 2) v /\
    qclass_code (q_class q) = v mod 32768 /\ q_unicast q = mdns c && (32768 <=? v).
Proof.
  intros c d p q b B L E. destruct (question_got c d p q b B L E) as (e & (k & v & H) & _). exists k, v. unfold top_bit in H. tauto.
Qed.
Theorem C46_record_parsed : forall (c : cfg) (d : bytes) (p : nat) (r : rr) (b : buf), byte_list d -> (p <= length d)%nat ->
  rr_try_from c (mkbuf d p) = (Ok r, b) ->
  exists k v, name_at d 191 p (rr_name r) k /\ u16_at d (k + 2) v /\
    rclass_code (rr_class r) = v mod 32768 /\ rclass_plain (rr_class r) /\ rr_flush r = mdns c && (32768 <=? v).
Proof.
  intros c d p r b B L E. destruct (record_got c d p r b B L E) as (e & (k & v & len & H) & _). exists k, v. unfold top_bit in H. tauto.
Qed.
(** Every value [v] of the class field: the class is the one with number [v mod 32768] if there is one,
    and there is no question otherwise. *)
Theorem C46_question_any_class : forall (c : cfg) (f : fqdn) (t : qtype) (v : N) (pre suf : bytes), fqdn_ok f -> qdecodable c t -> v < 65536 ->
  let bs := fqdn_to_bytes f ++ be 2 (qtype_code t) ++ be 2 v in
  (forall k, qclass_code k = v mod 32768 ->
   question_try_from c (mkbuf (pre ++ bs ++ suf) (length pre)) =
     (Ok (mkQ f t k (mdns c && (32768 <=? v))), mkbuf (pre ++ bs ++ suf) (length pre + length bs))) /\
  ((forall k, qclass_code k <> v mod 32768) ->
   exists e b, question_try_from c (mkbuf (pre ++ bs ++ suf) (length pre)) = (Err e, b)).
Proof.
  intros c f t v pre suf F D U bs. split; [intros k; apply question_class_read|apply question_class_unread]; assumption.
Qed.
Theorem C46_record_any_class : forall (c : cfg) (r : rr) (v : N) (pre suf db : bytes), rr_plain_ok c r -> v < 65536 ->
  rdata_to_bytes c (rr_data r) = Ok db ->
  let bs := fqdn_to_bytes (rr_name r) ++ be 2 (rtype_code (rr_type r)) ++ be 2 v ++ be 4 (rr_ttl r)
            ++ be 2 (N.of_nat (length db)) ++ db in
  exists k, rclass_code k = v mod 32768 /\ rclass_plain k /\
  rr_try_from c (mkbuf (pre ++ bs ++ suf) (length pre)) =
    (Ok (mkRR (rr_name r) (rr_type r) (mdns c && (32768 <=? v)) k (rr_ttl r) (rr_data r)),
     mkbuf (pre ++ bs ++ suf) (length pre + length bs)).
Proof. exact record_class_read. Qed.
(** The class [rclass_plain] describes is determined by its number. *)
Theorem C46_class_unique : forall k k' : rclass, rclass_plain k -> rclass_plain k' -> rclass_code k = rclass_code k' -> k = k'.
Proof. exact rclass_unique. Qed.
(** Written back. *)
Theorem C46_question_written : forall (c : cfg) (q : question), question_to_bytes c q =
  fqdn_to_bytes (q_name q) ++ be 2 (qtype_code (q_type q)) ++
  be 2 (qclass_code (q_class q) + (if mdns c && q_unicast q then 32768 else 0)).
Proof. exact question_written. Qed.
Theorem C46_question_written_compressed : forall (c : cfg) (h : hasher) (q : question) (m : names) (off : nat) bs m',
  question_to_bytes_compressed c h q m off = (bs, m') ->
  exists nb, fqdn_to_bytes_compressed h (q_name q) m off = (nb, m') /\
  bs = nb ++ be 2 (qtype_code (q_type q)) ++ be 2 (qclass_code (q_class q) + (if mdns c && q_unicast q then 32768 else 0)).
Proof. exact question_written_compressed. Qed.
Theorem C46_record_written : forall (c : cfg) (r : rr) (bs : bytes), rclass_code (rr_class r) < 32768 -> rr_to_bytes c r = Ok bs ->
  exists rest, bs = fqdn_to_bytes (rr_name r) ++ be 2 (rtype_code (rr_type r)) ++
    be 2 (rclass_code (rr_class r) + (if mdns c && rr_flush r then 32768 else 0)) ++ rest.
Proof. exact record_written. Qed.
Theorem C46_record_written_compressed : forall (c : cfg) (h : hasher) (r : rr) (m : names) (off : nat) bs m',
  rclass_code (rr_class r) < 32768 -> rr_to_bytes_compressed c h r m off = Ok (bs, m') ->
  exists nb m1 rest, fqdn_to_bytes_compressed h (rr_name r) m off = (nb, m1) /\ bs = nb ++ be 2 (rtype_code (rr_type r)) ++
    be 2 (rclass_code (rr_class r) + (if mdns c && rr_flush r then 32768 else 0)) ++ rest.
Proof. exact record_written_compressed. Qed.
Example C46_ex : fst (question_try_from ex_cfg (buf_from [0; 0; 1; 128; 1])) = Ok (mkQ [] (QT A) QIN true) /\
  fst (question_try_from ex_cfg0 (buf_from [0; 0; 1; 128; 1])) = Ok (mkQ [] (QT A) QIN false) /\
  rr_plain_ok ex_cfg ex_rr /\ rclass_code (rr_class ex_rr) < 32768.
Proof.
  split; [reflexivity|]. split; [reflexivity|]. split; [|cbn; lia]. destruct ex_packet_plain as (_ & _ & H). inversion H. assumption.
Qed.
Print Assumptions C46_question_parsed.
Print Assumptions C46_record_parsed.
Print Assumptions C46_question_any_class.
Print Assumptions C46_record_any_class.
Print Assumptions C46_class_unique.
Print Assumptions C46_question_written.
Print Assumptions C46_question_written_compressed.
Print Assumptions C46_record_written.
Print Assumptions C46_record_written_compressed.

(** ** C47 *)
Theorem C47_no_compression : forall (c : cfg) (h : hasher) (d : rdata) (m : names) (off : nat),
  compression_allowed (rdata_type d) = false ->
  match rdata_to_bytes c d with
  | Ok bs => rdata_to_bytes_compressed c h d m off = Ok (bs, m)
  | _ => forall x, rdata_to_bytes_compressed c h d m off <> Ok x
  end.
Proof. intros c h d m off H. rewrite (no_compression c h d m off H). destruct (rdata_to_bytes c d); try reflexivity; discriminate. Qed.
(** So outside of NS, CNAME, SOA, PTR, MINFO, MX (RFC 3597, section 4), SRV, NAPTR and NSEC nothing is compressed. *)
Theorem C47_types : forall (c : cfg) (h : hasher) (d : rdata) (m : names) (off : nat) (bs : bytes),
  rdata_to_bytes c d = Ok bs -> ~ In (rtype_code (rdata_type d)) [2; 5; 6; 12; 14; 15; 33; 35; 47] ->
  rdata_to_bytes_compressed c h d m off = Ok (bs, m).
Proof.
  intros c h d m off bs E NI. destruct (compression_allowed (rdata_type d)) eqn:A.
  - destruct d; try discriminate A; try (exfalso; apply NI; cbn; tauto). unfold rdata_to_bytes_compressed. rewrite E. reflexivity.
  - rewrite (no_compression c h d m off A), E. reflexivity.
Qed.
(** The declaration itself goes beyond RFC 3597, section 4: names in SRV, NAPTR and NSEC are compressed. *)
Theorem C47_rfc3597_refuted : forall (c : cfg) (h : hasher) (f : fqdn) (m : names) (off p : nat), f <> [] -> names_get (h f) m = Some p ->
  (forall a b e, rdata_to_bytes_compressed c h (DSRV (mkSrv a b e f)) m off = Ok (be 2 a ++ be 2 b ++ be 2 e ++ pointer_bytes p, m)) /\
  (forall ts db, types_to_bytes c ts = Ok db -> rdata_to_bytes_compressed c h (DNSEC (mkNsec f ts)) m off = Ok (pointer_bytes p ++ db, m)).
Proof. exact beyond_rfc3597. Qed.
Example C47_ex : compression_allowed (rdata_type ex_caa) = false /\ compression_allowed HIP = false /\
  rdata_to_bytes_compressed ex_cfg ex_hash (DHIP (mkHip AlgRSA [1] [2] (Some [ex_www]))) [(ex_hash ex_www, 12%nat)] 50 =
  Ok ([1; 1; 0; 1; 1; 2] ++ fqdn_to_bytes ex_www, [(ex_hash ex_www, 12%nat)]).
Proof. repeat split. Qed.
Print Assumptions C47_no_compression.
Print Assumptions C47_types.
Print Assumptions C47_rfc3597_refuted.

(** ** C49: false with overflow checks, for SVCB parameters of 65532 octets or more *)
Theorem C49_panic_refuted : forall (c : cfg) (h : hasher), ovf c = true -> exists p : packet,
  packet_typed c p /\ packet_to_bytes c p = Panic /\ packet_to_bytes_compressed c h p = Panic.
Proof. exact huge_param_panics. Qed.
Theorem C49_returns_iff_partial : forall (c : cfg) (h : hasher) (p : packet), packet_typed c p ->
  ((exists bs, packet_to_bytes c p = Ok bs) <-> packet_writable c p) /\
  ((exists bs, packet_to_bytes_compressed c h p = Ok bs) <-> packet_writable c p) /\
  (~ packet_writable c p -> packet_to_bytes c p = Panic /\ packet_to_bytes_compressed c h p = Panic).
Proof.
  intros c h p T. destruct (packet_plain_cases c p T) as [[W E]|[W E]], (packet_compressed_cases c h p T) as [[W' E']|[W' E']]; try contradiction.
  - split; [tauto|]. split; [tauto|]. contradiction.
  - rewrite E, E'. split; [split; [intros [? H]; discriminate|contradiction]|]. split; [split; [intros [? H]; discriminate|contradiction]|auto].
Qed.
Theorem C49_release : forall (c : cfg) (h : hasher) (p : packet), ovf c = false -> packet_typed c p ->
  (exists bs, packet_to_bytes c p = Ok bs) /\ (exists bs, packet_to_bytes_compressed c h p = Ok bs).
Proof.
  intros c h p O T. split; [apply (C49_returns_iff_partial c h p T)|apply (C49_returns_iff_partial c h p T)]; apply writable_release, O.
Qed.
Example C49_ex : packet_typed ex_cfg ex_packet /\ packet_typed ex_cfg0 caa_packet /\ packet_writable ex_cfg0 caa_packet.
Proof.
  split; [apply plain_typed, ex_packet_plain|]. split; [|repeat constructor].
  destruct (caa_packet_ok ex_cfg0) as (_ & _ & H). eapply Forall_impl; [|exact H]. intros r X. apply X.
Qed.
Print Assumptions C49_panic_refuted.
Print Assumptions C49_returns_iff_partial.
Print Assumptions C49_release.
