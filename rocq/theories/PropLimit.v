(** * Property C118: answers filled in up to a limit *)
From Coq Require Import Lia ZifyBool ZifyNat ZifyN.
From Verif Require Import Base Buffer Fqdn Header Types RDataBasic Svcb RDataSec RData Packet BaseFacts FqdnFacts CodeSpec CodeFacts HeaderSpec HeaderFacts CompressSpec RDataSpec RDataFacts RecordSpec RecordFacts
  PacketFacts PacketProps ApiSpec PropName PropRecord PropPacket.

(** ** What a user writes

    A server puts answers into a reply until the next one would exceed what the client can take, and says so with the truncation flag (RFC 2181, 9; RFC 1035,
    4.2.1).  It is not in the repository; all it calls is public (lib.rs:3-11). *)
(** [for r in records { let mut next = p.clone(); next.add_answer(r); if next.byte_size() > limit { p.set_truncation(true); break } p = next }]. *)
Fixpoint filled (c : cfg) (limit : nat) (p : packet) (rs : list rr) : res packet :=
  match rs with
  | [] => Ok p
  | r :: rs' =>
    let! next := add_answer c p r in
    let! n := packet_byte_size c next in
    if (limit <? n)%nat then Ok (packet_set_flag (fun h => set_truncation h true) p) else filled c limit next rs'
  end.

(** ** Proofs *)
Lemma no_error c l : Forall (rr_plain_ok c) l -> fold_right (fun r z => (size_error (rr_data r) + z)%Z) 0%Z l = 0%Z.
Proof.
  induction 1 as [|r l H F IH]; [reflexivity|]. cbn [fold_right]. rewrite IH. destruct H as (_ & X & _).
  destruct (rr_data r); cbn in X |- *; try reflexivity; try contradiction; rewrite X; reflexivity.
Qed.
Lemma plain_size c p : packet_plain_ok c p -> counts_of p = true_counts p ->
  exists bs, packet_to_bytes c p = Ok bs /\ packet_byte_size c p = Ok (length bs) /\ packet_try_from c bs = Ok p.
Proof.
  intros P K. destruct (packet_roundtrip c p P (counts_small p (proj1 P) K)) as (bs & E & F). exists bs. split; [exact E|].
  destruct (packet_size c p bs) as (n & En & Z); [apply plain_typed, P|exact E|]. rewrite (no_error c) in Z by apply P.
  split; [rewrite En; f_equal; lia|]. specialize (F []). rewrite app_nil_r, (recount_same p K) in F. exact F.
Qed.
Lemma sum_app {A} (f : A -> res nat) l x n k : sum_res f l = Ok n -> f x = Ok k -> sum_res f (l ++ [x]) = Ok (n + k)%nat.
Proof.
  revert n. induction l as [|y l IH]; intros n E F; cbn [sum_res app] in *.
  - injection E as <-. rewrite F. cbn. f_equal. lia.
  - destruct (f y) as [m| | |]; cbn [rbind] in *; try discriminate. destruct (sum_res f l) as [t| | |]; cbn [rbind] in *; try discriminate. injection E as <-.
    rewrite (IH t eq_refl F). cbn [rbind]. f_equal. lia.
Qed.
Lemma sum_least c l n : sum_res (rr_byte_size c) l = Ok n -> (length l <= n)%nat.
Proof.
  revert n. induction l as [|y l IH]; intros n E; cbn [sum_res length] in *; [lia|].
  destruct (rr_byte_size c y) as [m| | |] eqn:Ey; cbn [rbind] in *; try discriminate. destruct (sum_res _ l) as [t| | |]; cbn [rbind] in *; try discriminate. injection E as <-.
  specialize (IH t eq_refl). unfold rr_byte_size in Ey. destruct (rdata_byte_size c (rr_data y)); cbn [rbind] in Ey; try discriminate. injection Ey as <-. lia.
Qed.
Lemma answers_least c p n : packet_byte_size c p = Ok n -> (12 + length (p_answers p) <= n)%nat.
Proof.
  unfold packet_byte_size. intros E. destruct (sum_res _ (p_answers p)) as [a| | |] eqn:Ea; cbn [rbind] in *; try discriminate.
  destruct (sum_res _ (p_authorities p)) as [b| | |]; cbn [rbind] in *; try discriminate. destruct (sum_res _ (p_additionals p)) as [d| | |]; cbn [rbind] in *; try discriminate.
  injection E as <-. apply sum_least in Ea. unfold HEADER_SIZE. lia.
Qed.
Lemma added_size c p r next n k : add_answer c p r = Ok next -> packet_byte_size c p = Ok n -> rr_byte_size c r = Ok k -> packet_byte_size c next = Ok (n + k)%nat.
Proof.
  unfold add_answer, packet_byte_size. intros A E R. destruct (uadd c M16 (ans_count (p_header p)) 1) as [m| | |]; cbn [rbind] in A; try discriminate. injection A as <-.
  cbn [p_answers p_authorities p_additionals p_questions]. destruct (sum_res _ (p_answers p)) as [a| | |] eqn:Ea; cbn [rbind] in *; try discriminate.
  rewrite (sum_app _ _ _ a k Ea R). cbn [rbind]. destruct (sum_res _ (p_authorities p)) as [b| | |]; cbn [rbind] in *; try discriminate.
  destruct (sum_res _ (p_additionals p)) as [d| | |]; cbn [rbind] in *; try discriminate. injection E as <-. f_equal. unfold HEADER_SIZE. lia.
Qed.
Lemma added_ok c p r n : packet_plain_ok c p -> counts_of p = true_counts p -> rr_plain_ok c r -> packet_byte_size c p = Ok n -> N.of_nat n <= 65535 ->
  exists next, add_answer c p r = Ok next /\ packet_plain_ok c next /\ counts_of next = true_counts next /\ p_answers next = p_answers p ++ [r] /\ p_questions next = p_questions p /\
    p_authorities next = p_authorities p /\ p_additionals next = p_additionals p /\ id (p_header next) = id (p_header p) /\ hflags (p_header next) = hflags (p_header p).
Proof.
  intros (H & Q & R) K X E L. apply answers_least in E. unfold add_answer. unfold counts_of, true_counts in K. injection K as Kq Ka Kn Kd.
  assert (U : uadd c M16 (ans_count (p_header p)) 1 = Ok (ans_count (p_header p) + 1)).
  { unfold uadd. rewrite Ka. destruct (N.ltb_spec (N.of_nat (length (p_answers p)) + 1) M16) as [Lt|Ge]; [|exfalso; clear - Ge E L; unfold M16 in Ge; lia]. reflexivity. }
  rewrite U. cbn [rbind]. eexists. split; [reflexivity|]. cbn [p_answers p_authorities p_additionals p_questions p_header with_counts id hflags].
  split; [|split; [|repeat split; reflexivity]].
  - split; [|split; [exact Q|]].
    + destruct H as (H1 & H2 & H3 & H4 & H5 & H6). unfold header_typed. cbn [p_header with_counts id hflags ques_count ans_count auth_count add_count]. lia.
    + unfold records_of in *. cbn [p_answers p_authorities p_additionals] in *. rewrite !Forall_app in *. repeat split; try apply R. constructor; [exact X|constructor].
  - unfold counts_of, true_counts. cbn [p_answers p_authorities p_additionals p_questions p_header with_counts ques_count ans_count auth_count add_count].
    rewrite Kq, Ka, Kn, Kd, app_length. cbn [length]. repeat f_equal. lia.
Qed.
Lemma flagged_ok c p s : packet_plain_ok c p -> counts_of p = true_counts p ->
  packet_plain_ok c (packet_set_flag (call_setter s) p) /\ counts_of (packet_set_flag (call_setter s) p) = true_counts (packet_set_flag (call_setter s) p).
Proof.
  intros (H & Q & R) K. split.
  - split; [apply setter_typed, H|]. split; [exact Q|exact R].
  - unfold counts_of, true_counts in *. cbn [packet_set_flag with_header p_header p_questions p_answers p_authorities p_additionals] in *.
    pose proof (view_setter s (p_header p)) as V. remember (call_setter s (p_header p)) as h'. rewrite <- K.
    apply (f_equal (fun v => (v_qd v, v_an v, v_ns v, v_ar v))) in V. unfold view in V at 1. cbn in V. rewrite V. destruct s as [| | | | []| |]; reflexivity.
Qed.
Lemma names_nonempty c p : packet_plain_ok c p -> Forall (Forall (fun l => nonempty l = true)) (packet_names p).
Proof.
  intros (_ & Q & R). unfold packet_names. apply Forall_app. split.
  - apply Forall_map. eapply Forall_impl; [|exact Q]. intros q X. apply fqdn_ok_proper, X.
  - apply Forall_flat_map. eapply Forall_impl; [|exact R]. intros r X. unfold rr_names. constructor; [apply fqdn_ok_proper, X|].
    eapply Forall_impl; [exact fqdn_ok_proper|]. destruct X as ((_ & _ & X) & _). destruct (rr_data r); cbn in X |- *; repeat constructor; apply X.
Qed.
Lemma compressed_fits c h p bs : packet_plain_ok c p -> counts_of p = true_counts p -> packet_to_bytes c p = Ok bs ->
  exists cb, packet_to_bytes_compressed c h p = Ok cb /\ (length cb <= length bs)%nat /\
    (hash_separates h (packet_names p) -> N.of_nat (length cb) <= 16384 -> packet_try_from c cb = Ok p).
Proof.
  intros P K E. assert (T : packet_typed c p) by apply plain_typed, P.
  destruct (packet_compressed_cases c h p T) as [[_ (cb & Ec)]|[W _]].
  - exists cb. split; [exact Ec|]. split; [exact (packet_not_longer c h p cb bs (names_nonempty c p P) Ec E)|]. intros S L.
    pose proof (packet_compressed c h p cb (plain_is_ok c p P) K S Ec L []) as G. rewrite app_nil_r in G. exact G.
  - exfalso. destruct (packet_plain_cases c p T) as [[W' _]|[_ F]]; [exact (W W')|congruence].
Qed.

Definition cut_off (q : packet) : packet := packet_set_flag (fun h => set_truncation h true) q.
Lemma filled_cases c limit rs : Forall (rr_plain_ok c) rs -> N.of_nat limit <= 65535 -> forall p n, packet_plain_ok c p -> counts_of p = true_counts p ->
  packet_byte_size c p = Ok n -> (n <= limit)%nat ->
  exists sent left q k, rs = sent ++ left /\ history c (map (AddRecord Answers) sent) p = Ok q /\ packet_plain_ok c q /\ counts_of q = true_counts q /\
    filled c limit p rs = Ok (match left with [] => q | _ :: _ => cut_off q end) /\ packet_byte_size c q = Ok k /\ (k <= limit)%nat /\
    p_answers q = p_answers p ++ sent /\ p_questions q = p_questions p /\ p_authorities q = p_authorities p /\ p_additionals q = p_additionals p /\
    id (p_header q) = id (p_header p) /\ hflags (p_header q) = hflags (p_header p) /\
    forall r left', left = r :: left' -> exists m, rr_byte_size c r = Ok m /\ (limit < k + m)%nat.
Proof.
  intros F L. induction F as [|r rs X F IH]; intros p n P K E Le.
  - exists [], [], p, n. cbn [map history filled]. rewrite (app_nil_r (p_answers p)). repeat (split; [solve [reflexivity|assumption]|]). intros r left X; discriminate X.
  - destruct (added_ok c p r n P K X E ltac:(lia)) as (next & A & Pn & Kn & An & Qn & Un & Dn & In & Fn).
    destruct (rr_plain_size c r) as [m Em]; [apply X|]. pose proof (added_size c p r next n m A E Em) as En. cbn [filled]. rewrite A. cbn [rbind]. rewrite En. cbn [rbind].
    destruct (Nat.ltb_spec limit (n + m)) as [Lt|Ge].
    + exists [], (r :: rs), p, n. cbn [map history]. rewrite (app_nil_r (p_answers p)). repeat (split; [solve [reflexivity|assumption]|]). intros r' left' [= <- <-]. exists m. split; [exact Em|exact Lt].
    + destruct (IH next (n + m)%nat Pn Kn En Ge) as (sent & left & q & k & -> & H & Pq & Kq & Fq & Eq & Lq & Aq & Qq & Uq & Dq & Iq & Flq & Next).
      exists (r :: sent), left, q, k. cbn [map history run]. rewrite A. cbn [rbind]. rewrite An, <- app_assoc in Aq.
      split; [reflexivity|]. split; [exact H|]. split; [exact Pq|]. split; [exact Kq|]. split; [exact Fq|]. split; [exact Eq|]. split; [exact Lq|]. split; [exact Aq|].
      repeat (split; [congruence|]). exact Next.
Qed.

(** ** C118: false where [byte_size] is wrong (C24) *)

(** For every limit, a record that is put in although the message is longer than the limit: CAA, whose tag is not counted. *)
Theorem C118_over_refuted : forall (c : cfg) (limit : nat) (tag : bytes), (25 <= limit)%nat -> N.of_nat limit <= 65535 -> text tag -> tag <> [] -> short tag ->
  exists (r : rr) (p : packet) (bs : bytes), rr_ok c r /\ filled c limit (packet_new_reply 0) [r] = Ok p /\ p_answers p = [r] /\ truncation (p_header p) = false /\
    packet_to_bytes c p = Ok bs /\ length bs = (limit + length tag)%nat.
Proof.
  intros c limit tag L1 L2 T NE Sh. exists (mkRR [] CAA false CIN 0 (DCAA (mkCaa true tag (repeat 0 (limit - 25))))).
  assert (B : packet_byte_size c (mkPacket (mkheader 0 (hflags (header_new_reply 0 StandardQuery)) 0 1 0 0) [] [mkRR [] CAA false CIN 0 (DCAA (mkCaa true tag (repeat 0 (limit - 25))))] [] []) = Ok limit).
  { unfold packet_byte_size. cbn [p_answers p_authorities p_additionals p_questions sum_res rbind fold_right]. unfold rr_byte_size. cbn [rr_data rdata_byte_size rbind rr_name].
    unfold caa_byte_size. cbn [caa_value rbind].
    rewrite repeat_length. change (fqdn_byte_size []) with 1%nat. unfold HEADER_SIZE. f_equal. lia. }
  do 2 eexists. split; [|split; [|split; [|split; [|split]]]].
  - split; [|split].
    + split; [constructor|]. split; [destruct c as [[|] [|] o]; repeat split; (reflexivity || discriminate)|]. repeat split; try reflexivity.
    + split; [destruct c as [[|] [|] o]; reflexivity|]. exact T.
    + split; [exact NE|exact Sh].
  - cbn [filled]. assert (A : add_answer c (packet_new_reply 0) (mkRR [] CAA false CIN 0 (DCAA (mkCaa true tag (repeat 0 (limit - 25))))) = Ok (mkPacket (mkheader 0 (hflags (header_new_reply 0 StandardQuery)) 0 1 0 0) [] [mkRR [] CAA false CIN 0 (DCAA (mkCaa true tag (repeat 0 (limit - 25))))] [] [])) by reflexivity.
    rewrite A. cbn [rbind]. rewrite B. cbn [rbind]. rewrite Nat.ltb_irrefl. reflexivity.
  - reflexivity.
  - reflexivity.
  - unfold packet_to_bytes. rewrite B. cbn [rbind]. reflexivity.
  - rewrite !app_length, !be_length. cbn [rr_name fqdn_to_bytes p_questions flat_map app length]. unfold caa_to_bytes. rewrite !app_length. cbn [length caa_tag caa_value].
    rewrite repeat_length. change (length (patched_header _)) with 12%nat. change (length (fqdn_to_bytes [])) with 1%nat. lia.
Qed.
(** For every limit, a record that is left out although it fits: SVCB, whose parameters are counted with four octets too many. *)
Theorem C118_under_refuted : forall (c : cfg) (limit : nat), (30 <= limit)%nat -> N.of_nat limit <= 65535 ->
  exists (r : rr) (p full : packet) (bs : bytes), rr_ok c r /\ filled c limit (packet_new_reply 0) [r] = Ok p /\ p_answers p = [] /\ truncation (p_header p) = true /\
    add_answer c (packet_new_reply 0) r = Ok full /\ packet_to_bytes c full = Ok bs /\ length bs = limit.
Proof.
  intros c limit L1 L2. set (x := mkSvcb 1 [] [PEch (repeat 0 (limit - 30))]). set (r := mkRR [] SVCB false CIN 0 (DSVCB x)).
  set (full := mkPacket (mkheader 0 (hflags (header_new_reply 0 StandardQuery)) 0 1 0 0) [] [r] [] []).
  assert (A : add_answer c (packet_new_reply 0) r = Ok full) by reflexivity.
  assert (Sx : svcb_byte_size x = (limit - 19)%nat).
  { unfold x, svcb_byte_size. cbn [sv_target sv_params fold_left param_byte_size]. unfold param_byte_size. rewrite repeat_length. change (fqdn_byte_size []) with 1%nat. lia. }
  assert (B : packet_byte_size c full = Ok (limit + 4)%nat).
  { unfold packet_byte_size, full. cbn [p_answers p_authorities p_additionals p_questions sum_res rbind fold_right]. unfold rr_byte_size, r. cbn [rr_data rdata_byte_size rbind rr_name].
    rewrite Sx. cbn [rbind]. change (fqdn_byte_size []) with 1%nat. unfold HEADER_SIZE. f_equal. lia. }
  assert (X : exists xb, svcb_to_bytes c x = Ok xb /\ length xb = (limit - 23)%nat).
  { unfold svcb_to_bytes, x. cbn [sv_params params_bytes]. unfold param_to_bytes. unfold param_byte_size. cbn [param_key param_value_bytes]. rewrite repeat_length, len16_id by lia.
    unfold usub. destruct (N.leb_spec 4 (N.of_nat (4 + (limit - 30)))) as [_|H]; [|exfalso; clear - H; lia]. cbn [rbind]. eexists. split; [reflexivity|].
    rewrite !app_length, !be_length, repeat_length. cbn [sv_target]. change (length (fqdn_to_bytes [])) with 1%nat. cbn [length]. lia. }
  destruct X as (xb & Ex & Lx). do 3 eexists. eexists. split; [|split; [|split; [|split; [|split; [exact A|split]]]]].
  - split; [|split].
    + split; [constructor|]. split; [destruct c as [[|] [|] o]; repeat split; (reflexivity || discriminate)|]. repeat split; try reflexivity.
    + split; [destruct c as [[|] [|] o]; reflexivity|]. split; [reflexivity|]. split; [repeat constructor|]. repeat constructor.
    + split; [constructor|]. constructor; [|constructor]. cbn. rewrite repeat_length. lia.
  - cbn [filled]. rewrite A. cbn [rbind]. rewrite B. cbn [rbind]. destruct (Nat.ltb_spec limit (limit + 4)) as [_|H]; [reflexivity|exfalso; clear - H; lia].
  - reflexivity.
  - reflexivity.
  - unfold packet_to_bytes. rewrite B. cbn [rbind]. unfold full, concat_res. cbn [p_answers p_authorities p_additionals rbind]. unfold rr_to_bytes, rr_byte_size, r.
    cbn [rr_data rdata_byte_size rdata_to_bytes rbind]. rewrite Ex. cbn [rbind]. reflexivity.
  - rewrite !app_length, !be_length. change (length (patched_header _)) with 12%nat. cbn [rr_name p_questions flat_map app length]. change (length (fqdn_to_bytes [])) with 1%nat. lia.
Qed.
(** For all other records: everything up to the first answer that does not fit is sent, the flag tells whether that is all, and both forms keep to the limit. *)
Theorem C118_fits_partial : forall (c : cfg) (limit : nat) (p : packet) (rs : list rr) (n : nat), packet_plain_ok c p -> counts_of p = true_counts p -> Forall (rr_plain_ok c) rs ->
  packet_byte_size c p = Ok n -> (n <= limit)%nat -> N.of_nat limit <= 65535 ->
  exists (sent left : list rr) (q p' : packet) (bs : bytes), rs = sent ++ left /\ history c (map (AddRecord Answers) sent) p = Ok q /\
    filled c limit p rs = Ok p' /\ p' = match left with [] => q | _ :: _ => packet_set_flag (fun h => set_truncation h true) q end /\
    p_answers p' = p_answers p ++ sent /\ p_questions p' = p_questions p /\ p_authorities p' = p_authorities p /\ p_additionals p' = p_additionals p /\
    id (p_header p') = id (p_header p) /\ (left = [] -> hflags (p_header p') = hflags (p_header p)) /\ (left <> [] -> truncation (p_header p') = true) /\
    packet_to_bytes c p' = Ok bs /\ (length bs <= limit)%nat /\ packet_try_from c bs = Ok p' /\
    (forall r left', left = r :: left' -> exists b, rr_to_bytes c r = Ok b /\ (limit < length bs + length b)%nat) /\
    forall h, exists cb, packet_to_bytes_compressed c h p' = Ok cb /\ (length cb <= limit)%nat /\
      (hash_separates h (packet_names p') -> N.of_nat (length cb) <= 16384 -> packet_try_from c cb = Ok p').
Proof.
  intros c limit p rs n P K F E Le L. destruct (filled_cases c limit rs F L p n P K E Le) as (sent & left & q & k & -> & H & Pq & Kq & Fq & Eq & Lq & Aq & Qq & Uq & Dq & Iq & Flq & Next).
  set (p' := match left with [] => q | _ :: _ => cut_off q end) in *.
  assert (X : packet_plain_ok c p' /\ counts_of p' = true_counts p' /\ packet_byte_size c p' = Ok k).
  { destruct left as [|r l]; [split; [exact Pq|split; [exact Kq|exact Eq]]|]. destruct (flagged_ok c q (SetTruncation true) Pq Kq) as [Y Z]. split; [exact Y|]. split; [exact Z|exact Eq]. }
  destruct X as (P' & K' & E'). destruct (plain_size c p' P' K') as (bs & Eb & Es & Ep). assert (length bs = k) as Lb by congruence.
  assert (V : view (set_truncation (p_header q) true) = apply_setter (SetTruncation true) (view (p_header q))) by exact (view_setter (SetTruncation true) (p_header q)).
  exists sent, left, q, p', bs. split; [reflexivity|]. split; [exact H|]. split; [exact Fq|]. split; [reflexivity|].
  split; [destruct left; exact Aq|]. split; [destruct left; exact Qq|]. split; [destruct left; exact Uq|]. split; [destruct left; exact Dq|].
  split; [destruct left; [exact Iq|rewrite <- Iq; apply (f_equal v_id) in V; exact V]|].
  split; [intros ->; exact Flq|].
  split; [destruct left; [congruence|]; intros _; apply (f_equal v_tc) in V; exact V|].
  split; [exact Eb|]. split; [lia|]. split; [exact Ep|]. split.
  - intros r left' ->. destruct (Next r left' eq_refl) as (m & Em & Lm). apply Forall_app in F. destruct F as [_ F]. apply Forall_cons_iff in F. destruct F as [X _].
    destruct (reads_rr c r X) as (b & Er & _). exists b. split; [exact Er|].
    assert (length b = m) as ->; [|lia]. destruct (rr_size c r b) as (m' & Em' & Z); [apply X|exact Er|]. pose proof (no_error c [r] (Forall_cons r X (Forall_nil _))) as Z0. cbn [fold_right] in Z0.
    assert (m = m') by congruence. lia.
  - intros h. destruct (compressed_fits c h p' bs P' K' Eb) as (cb & Ec & Lc & G). exists cb. split; [exact Ec|]. split; [lia|exact G].
Qed.
(** With a limit of 191 octets all answers of the packet fit, with 190 the last is left out. *)
Definition bare : packet := mkPacket (with_counts (p_header ex_packet) (ques_count (p_header ex_packet)) 0 (auth_count (p_header ex_packet)) (add_count (p_header ex_packet)))
  (p_questions ex_packet) [] (p_authorities ex_packet) (p_additionals ex_packet).
Example C118_ex : packet_plain_ok ex_cfg bare /\ counts_of bare = true_counts bare /\ Forall (rr_plain_ok ex_cfg) (p_answers ex_packet) /\
  filled ex_cfg 191 bare (p_answers ex_packet) = Ok ex_packet /\
  (exists p, filled ex_cfg 190 bare (p_answers ex_packet) = Ok p /\ truncation (p_header p) = true /\ S (length (p_answers p)) = length (p_answers ex_packet)) /\
  text [97; 98; 99] /\ short [97; 98; 99].
Proof.
  assert (F : Forall (rr_plain_ok ex_cfg) (records_of ex_packet)) by apply ex_packet_plain.
  split; [|split; [reflexivity|split; [|split; [vm_compute; reflexivity|split; [|split; [reflexivity|cbn; unfold short; cbn; lia]]]]]].
  - split; [|split; [apply ex_packet_plain|]].
    + unfold header_typed. vm_compute. repeat split.
    + unfold records_of in *. apply Forall_app in F. exact (proj2 F).
  - unfold records_of in F. apply Forall_app in F. exact (proj1 F).
  - eexists. split; [vm_compute; reflexivity|]. split; vm_compute; reflexivity.
Qed.
Print Assumptions C118_over_refuted.
Print Assumptions C118_under_refuted.
Print Assumptions C118_fits_partial.
