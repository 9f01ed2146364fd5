(** * C132: messages authenticated with TSIG *)
From Coq Require Import Lia ZifyBool ZifyNat ZifyN Permutation.
From Verif Require Import Base Buffer Fqdn Header Types RDataBasic RDataSec Svcb Bitmap RData Packet BaseFacts FqdnFacts CodeSpec CodeFacts RDataSpec RDataReads CompressSpec ChunkFacts
  RecordSpec HeaderSpec PacketFacts ObjectSpec ObjectFacts Api Equality EqualityFacts SignSpec DnssecFacts SipHash PacketProps RelayFacts PatchSpec AppendSpec PropName PropRecord PropPacket PropAppend PropCut PropTrust PropEqual PropKnown PropHash.

(** ** What users write (RFC 8945, 4.2, 4.3 and 5.2)

    [mac] is the authentication code with the key that both sides share; it can be any function.  The message is written without the TSIG record, the code is
    computed over these octets and the variables of the record, and the record is put behind all others. *)
Definition form (c : cfg) (h : hasher) (compressed : bool) (p : packet) : res bytes := if compressed then packet_to_bytes_compressed c h p else packet_to_bytes c p.
Definition variables (k : fqdn) (t : tsig) : bytes :=
  fqdn_to_bytes (lower_name k) ++ be 2 255 ++ be 4 0 ++ fqdn_to_bytes (lower_name (ts_alg t)) ++ be 6 (ts_time t) ++ be 2 (ts_fudge t) ++ be 2 (tserr_code (ts_err t)) ++
  be 2 (len16 (length (ts_other t))) ++ ts_other t.
Definition tsig_record (k : fqdn) (t : tsig) : rr := mkRR k TSIG false (UdpPayloadSize 255) 0 (DTSIG t).
Definition filled_in (t : tsig) (i : N) (code : bytes) : tsig := mkTsig (ts_alg t) (ts_time t) (ts_fudge t) code i (ts_err t) (ts_other t).
Definition authenticate (c : cfg) (h : hasher) (z : bool) (mac : bytes -> bytes) (k : fqdn) (t : tsig) (p : packet) : res packet :=
  let! m := form c h z p in add_additional c p (tsig_record k (filled_in t (id (p_header p)) (mac (m ++ variables k t)))).
(** The receiver takes the record off, puts the original ID back, writes what is left and computes the code in the same way. *)
Definition in_time (now : N) (t : tsig) : bool := (now <=? ts_time t + ts_fudge t) && (ts_time t <=? now + ts_fudge t).
Definition check (c : cfg) (h : hasher) (z : bool) (mac : bytes -> bytes) (k : fqdn) (now : N) (q : packet) : res bool :=
  let '(ads, q1) := take_additionals q in
  match rev ads with
  | r :: rest =>
    match rr_data r with
    | DTSIG t =>
      let! m := form c h z (set_additionals (packet_set_id q1 (ts_id t)) (rev rest)) in
      Ok (fqdn_eqb (lower_name (rr_name r)) (lower_name k) && bytes_eqb (ts_mac t) (mac (m ++ variables (rr_name r) t)) && in_time now t)
    | _ => Ok false
    end
  | [] => Ok false
  end.

(** ** What is meant *)
(** The packet can be sent in this form (C28, C29). *)
Definition can_be_sent (c : cfg) (h : hasher) (z : bool) (p : packet) : Prop :=
  counts_of p = true_counts p /\
  if z then packet_ok c p /\ hash_separates h (packet_names p) /\ (forall m, packet_to_bytes_compressed c h p = Ok m -> N.of_nat (length m) <= 16384)
  else packet_plain_ok c p /\ small_sections p.
(** [q] has the content of [p], and behind it the TSIG record with the name [k] and the data [t]; its ID may be another one. *)
Record carries (q p : packet) (k : fqdn) (t : tsig) : Prop := {
  same_flags : hflags (p_header q) = hflags (p_header p);
  original_id : id (p_header p) = ts_id t;
  same_questions : p_questions q = p_questions p;
  same_answers : p_answers q = p_answers p;
  same_authorities : p_authorities q = p_authorities p;
  one_more : exists r, p_additionals q = p_additionals p ++ [r] /\ rr_name r = k /\ rr_data r = DTSIG t }.
(** What the code protects of the record. *)
Definition same_variables (t t' : tsig) : Prop :=
  lower_name (ts_alg t) = lower_name (ts_alg t') /\ ts_time t = ts_time t' /\ ts_fudge t = ts_fudge t' /\ ts_err t = ts_err t' /\ ts_other t = ts_other t'.
Definition tsig_fits (t : tsig) : Prop := fqdn_ok (ts_alg t) /\ U48 (ts_time t) /\ U16 (ts_fudge t).

Lemma sendable_reads c h z p m : can_be_sent c h z p -> form c h z p = Ok m -> forall suf, packet_try_from c (m ++ suf) = Ok p.
Proof.
  intros (C & S) E. destruct z; cbn [form] in E.
  - destruct S as (O & H & L). exact (C29_compressed_roundtrip_partial c h p m O C H E (L m E)).
  - destruct S as (O & Sm). destruct (C28_plain_roundtrip_partial c p O Sm) as (bs & Eb & R). rewrite Eb in E. apply Ok_inj in E. subst bs. intros suf. rewrite R. f_equal.
    destruct p as [[i f q a b d] Q An Au Ad]. unfold counts_of, true_counts in C. cbn in C |- *. injection C as -> -> -> ->. reflexivity.
Qed.
Lemma sendable_ok c h z p : can_be_sent c h z p -> packet_ok c p.
Proof.
  intros (_ & S). destruct z; [apply S|]. destruct S as ((O1 & O2 & O3) & _). split; [exact O1|]. split; [exact O2|]. eapply Forall_impl; [|exact O3]. intros r (X & _). exact X.
Qed.
Lemma bytes_eqb_iff a : forall b, Api.bytes_eqb a b = true <-> a = b.
Proof.
  induction a as [|x a IH]; intros [|y b]; cbn [Api.bytes_eqb]; split; intros H; try reflexivity; try discriminate.
  - apply andb_true_iff in H. destruct H as (H1 & H2). apply N.eqb_eq in H1. apply IH in H2. congruence.
  - injection H as -> ->. rewrite N.eqb_refl. apply IH. reflexivity.
Qed.
Lemma lower_ok f : fqdn_ok f -> fqdn_ok (lower_name f).
Proof. unfold fqdn_ok, lower_name. intros F. apply Forall_map. eapply Forall_impl; [|exact F]. intros l L. unfold label_ok in *. rewrite map_length. exact L. Qed.

(** What the receiver works on is what the sender wrote. *)
Lemma taken_off c p r s : counts_of p = true_counts p -> N.of_nat (length (p_additionals p)) < 65535 -> add_additional c p r = Ok s ->
  counts_of s = true_counts s /\ p_additionals s = p_additionals p ++ [r] /\ forall j, set_additionals (packet_set_id (snd (take_additionals (packet_set_id s j))) (id (p_header p))) (p_additionals p) = p.
Proof.
  intros C L A. destruct p as [[i f nq na nu nd] Q An Au Ad]. unfold counts_of, true_counts in C. cbn in C, L. injection C as -> -> -> ->.
  unfold add_additional in A. cbn [p_header add_count] in A. unfold uadd in A. replace (_ <? M16) with true in A by (unfold M16; lia). cbn [rbind] in A. apply Ok_inj in A. subst s.
  split; [|split; [reflexivity|]].
  - unfold counts_of, true_counts. cbn. rewrite app_length. cbn [length]. repeat f_equal. lia.
  - intros j. cbn -[len16 N.of_nat]. unfold set_additionals, with_counts; cbn -[len16 N.of_nat]. rewrite len16_id by lia. reflexivity.
Qed.
Lemma check_added c h z mac k now p r t s j : counts_of p = true_counts p -> N.of_nat (length (p_additionals p)) < 65535 -> add_additional c p r = Ok s -> rr_data r = DTSIG t ->
  ts_id t = id (p_header p) ->
  check c h z mac k now (packet_set_id s j) =
  let! m := form c h z p in Ok (fqdn_eqb (lower_name (rr_name r)) (lower_name k) && Api.bytes_eqb (ts_mac t) (mac (m ++ variables (rr_name r) t)) && in_time now t).
Proof.
  intros C L A D I. destruct (taken_off c p r s C L A) as (_ & E & X). specialize (X j). unfold check.
  destruct (take_additionals (packet_set_id s j)) as (ads, q1) eqn:T. assert (Ea : ads = p_additionals p ++ [r]) by (unfold take_additionals in T; injection T as <- _; exact E).
  rewrite Ea, rev_app_distr. cbn [rev app]. rewrite D, I, rev_involutive. cbn [snd] in X. rewrite X. reflexivity.
Qed.

(** ** Theorems *)
(** What has been authenticated is recognised by who has the key, whatever ID the message has got on its way, in any order the map of EDNS options may have. *)
Theorem C132_accepted_partial : forall (c : cfg) (h : hasher) (z : bool) (mac : bytes -> bytes) (k : fqdn) (t : tsig) (p s : packet) (out : bytes) (now : N),
  counts_of p = true_counts p -> N.of_nat (length (p_additionals p)) < 65535 -> few_options p ->
  authenticate c h z mac k t p = Ok s -> can_be_sent c h z s -> form c h z s = Ok out -> in_time now t = true ->
  exists q, packet_try_from c out = Ok q /\ forall q' i, maps_in q' -> packet_eqb q q' = true -> check c h z mac k now (packet_set_id q' i) = Ok true.
Proof.
  intros c h z mac k t p s out now C L F A S E T. exists s. split; [pose proof (sendable_reads c h z s out S E []) as R; rewrite app_nil_r in R; exact R|].
  intros q' i M Q. unfold authenticate in A. apply rbind_ok in A. destruct A as (m & Em & A).
  assert (Fs : few_options s).
  { unfold few_options, records_of in *. destruct (taken_off _ _ _ _ C L A) as (_ & Ea & _).
    assert (p_answers s = p_answers p /\ p_authorities s = p_authorities p) as (-> & ->) by (unfold add_additional in A; apply rbind_ok in A; destruct A as (n & _ & A); apply Ok_inj in A; subst s; split; reflexivity).
    rewrite Ea. rewrite !Forall_app in *. destruct F as (F1 & F2 & F3). repeat split; try assumption. repeat constructor. }
  destruct (C127_same_octets_partial c h s q' (ok_maps c s (sendable_ok _ _ _ _ S)) M Fs Q) as (-> & _).
  rewrite (check_added c h z mac k now p _ (filled_in t (id (p_header p)) (mac (m ++ variables k t))) s i C L A eq_refl eq_refl). rewrite Em. cbn [rbind tsig_record rr_name filled_in ts_mac].
  f_equal. rewrite !andb_true_iff. split; [split|]; [apply fqdn_eqb_iff; reflexivity|apply bytes_eqb_iff; reflexivity|exact T].
Qed.

(** The code is over the octets that are sent, up to the TSIG record and with the number of records there was before it: other implementations, which take the
    record off the octets, compute it over the same. *)
Theorem C132_octets : forall (c : cfg) (h : hasher) (z : bool) (mac : bytes -> bytes) (k : fqdn) (t : tsig) (p s : packet) (out : bytes),
  counts_of p = true_counts p -> N.of_nat (length (p_additionals p)) < 65535 -> authenticate c h z mac k t p = Ok s -> form c h z s = Ok out ->
  exists m rb, form c h z p = Ok m /\ out = patch (m ++ rb) 10 (be 2 (N.of_nat (length (p_additionals p)) + 1)) /\
    p_additionals s = p_additionals p ++ [tsig_record k (filled_in t (id (p_header p)) (mac (m ++ variables k t)))].
Proof.
  intros c h z mac k t p s out C L A E. unfold authenticate in A. apply rbind_ok in A. destruct A as (m & Em & A). exists m. destruct (taken_off _ _ _ _ C L A) as (Cs & Ea & _).
  assert (K : counter Additionals s = N.of_nat (length (p_additionals p)) + 1).
  { unfold counts_of, true_counts in Cs. injection Cs as _ _ _ Cs. cbn [counter]. rewrite Cs, Ea, app_length. cbn [length]. lia. }
  destruct z; cbn [form] in *.
  - destruct (C99_compressed c h p Additionals _ m s out Em Logic.I A E) as (rb & m1 & m2 & _ & X). exists rb. rewrite K in X. repeat split; assumption.
  - assert (R : exists rb, rr_to_bytes c (tsig_record k (filled_in t (id (p_header p)) (mac (m ++ variables k t)))) = Ok rb) by (eexists; reflexivity). destruct R as (rb & R).
    exists rb. pose proof (C99_written c p Additionals _ m rb s Em R Logic.I ltac:(cbn [records]; lia) A) as X. rewrite X in E. apply Ok_inj in E. symmetry in E. repeat split; assumption.
Qed.

(** Nothing else is: an accepted message has the content of one that was authenticated, with the same time, unless its code was found without the key. *)
Definition made_with_key (c : cfg) (h : hasher) (z : bool) (mac : bytes -> bytes) (k : fqdn) (made : list (packet * tsig)) (code : bytes) : Prop :=
  forall x, mac x = code -> exists p t m, In (p, t) made /\ form c h z p = Ok m /\ x = m ++ variables k t.

Lemma app_inv_length {X} (a b x y : list X) : length a = length b -> a ++ x = b ++ y -> a = b /\ x = y.
Proof. revert b. induction a as [|e a IH]; intros [|f b] L E; cbn in L, E; try discriminate; [auto|]. injection E as -> E. injection L as L. destruct (IH b L E) as (-> & ->). auto. Qed.
Lemma tserr_inj a b : tserr_code a = tserr_code b -> a = b. Proof. destruct a, b; (reflexivity || discriminate). Qed.
Lemma variables_same k k' t t' : lower_name k' = lower_name k -> tsig_fits t -> tsig_fits t' -> variables k t = variables k' t' -> same_variables t t'.
Proof.
  intros K (A & B & D) (A' & B' & D') E. unfold variables in E. rewrite K in E. apply app_inv_head in E. apply app_inv_head in E. apply app_inv_head in E.
  apply name_split in E; [|apply lower_ok; assumption..]. destruct E as (E1 & E).
  apply app_inv_length in E; [|rewrite !be_length; reflexivity]. destruct E as (E2 & E). apply be_inj in E2; [|exact B|exact B'].
  apply app_inv_length in E; [|rewrite !be_length; reflexivity]. destruct E as (E3 & E). apply be_inj in E3; [|exact D|exact D'].
  apply app_inv_length in E; [|rewrite !be_length; reflexivity]. destruct E as (E4 & E). apply be_inj in E4; [|destruct (ts_err t); reflexivity|destruct (ts_err t'); reflexivity]. apply tserr_inj in E4.
  apply app_inv_length in E; [|rewrite !be_length; reflexivity]. destruct E as (_ & E). repeat split; assumption.
Qed.
Lemma check_true c h z mac k now q : check c h z mac k now q = Ok true ->
  exists p k' t m, carries q p k' t /\ p = set_additionals (packet_set_id q (ts_id t)) (p_additionals p) /\ form c h z p = Ok m /\ lower_name k' = lower_name k /\ ts_mac t = mac (m ++ variables k' t) /\ in_time now t = true.
Proof.
  unfold check. destruct (take_additionals q) as (ads, q1) eqn:T. destruct (rev ads) as [|r rest] eqn:R; [discriminate|]. destruct (rr_data r) eqn:D; try discriminate. rename x into t. intros E.
  apply rbind_ok in E. destruct E as (m & Em & E). apply Ok_inj in E. rewrite !andb_true_iff in E. destruct E as ((E1 & E2) & E3). apply fqdn_eqb_iff in E1. apply bytes_eqb_iff in E2.
  assert (Ea : ads = rev rest ++ [r]) by (rewrite <- (rev_involutive ads), R; reflexivity).
  unfold take_additionals in T. injection T as T1 T2. eexists. exists (rr_name r), t, m. split; [|split; [|split; [exact Em|repeat split; assumption]]].
  - subst q1. constructor; try reflexivity. exists r. split; [|split; [reflexivity|exact D]]. rewrite T1, Ea. reflexivity.
  - subst q1. destruct q as [[i f nq na nu nd] Q An Au Ad]. cbn. reflexivity.
Qed.
Theorem C132_only_partial : forall (c : cfg) (h : hasher) (z : bool) (mac : bytes -> bytes) (k : fqdn) (made : list (packet * tsig)) (d : bytes) (q : packet) (now : N),
  Forall (fun m => can_be_sent c h z (fst m) /\ tsig_fits (snd m)) made ->
  byte_list d -> N.of_nat (length d) <= 9223372036854775807 -> packet_try_from c d = Ok q -> check c h z mac k now q = Ok true ->
  (forall p k' t, carries q p k' t -> counts_of p = true_counts p -> can_be_sent c h z p /\ made_with_key c h z mac k made (ts_mac t)) ->
  exists p t k' t', In (p, t) made /\ carries q p k' t' /\ lower_name k' = lower_name k /\ same_variables t t' /\ in_time now t = true.
Proof.
  intros c h z mac k made d q now F B Al R E K. destruct (check_true c h z mac k now q E) as (p & k' & t' & m & Ca & Ep & Em & El & Ec & Ti).
  destruct (packet_parsed_records c d q B Al R) as (Ht & Co & _ & Pr).
  assert (Cp : counts_of p = true_counts p).
  { destruct Ca as [_ _ _ _ _ (r & Er & _)]. destruct Ht as (_ & _ & _ & _ & _ & Ha). rewrite Ep. unfold counts_of, true_counts in *. injection Co as C1 C2 C3 C4.
    rewrite Er, app_length in C4. cbn [length] in C4. cbn -[len16 N.of_nat]. rewrite C1, C2, C3, len16_id by lia. reflexivity. }
  assert (Ft : tsig_fits t').
  { destruct Ca as [_ _ _ _ _ (r & Er & _ & D)]. unfold records_of in Pr. rewrite Er, !Forall_app in Pr. destruct Pr as (_ & _ & _ & Pr). apply Forall_inv in Pr. destruct Pr as (_ & Ty & _ & Fi). rewrite D in Ty, Fi. specialize (Fi Logic.I).
    destruct Ty as (_ & _ & T2 & _), Fi as (T0 & T1 & _). exact (conj T0 (conj T1 T2)). }
  destruct (K p k' t' Ca Cp) as (S & Mk). destruct (Mk _ (eq_sym Ec)) as (p0 & t0 & m0 & I0 & E0 & X).
  rewrite Forall_forall in F. destruct (F _ I0) as (S0 & F0). cbn [fst snd] in S0, F0.
  pose proof (sendable_reads c h z p m S Em (variables k' t')) as R1. pose proof (sendable_reads c h z p0 m0 S0 E0 (variables k t0)) as R2. rewrite X, R2 in R1. apply Ok_inj in R1. subst p0.
  rewrite E0 in Em. apply Ok_inj in Em. subst m0. apply app_inv_head in X.
  pose proof (variables_same k k' t0 t' El F0 Ft (eq_sym X)) as Sv. exists p, t0, k', t'. repeat split; try assumption; try apply Sv; try apply Ca.
  destruct Sv as (_ & V1 & V2 & _). unfold in_time in *. rewrite V1, V2. exact Ti.
Qed.

(** An example: the key is named k, the algorithm hmac. *)
Definition ex_key : fqdn := [[107]].
Definition ex_tsig : tsig := mkTsig [[104; 109; 97; 99]] 1700000000 300 [] 0 TsNone [].
Lemma tsig_plain_ok c i code : i < 65536 -> (length code <= 64)%nat -> rr_plain_ok c (tsig_record ex_key (filled_in ex_tsig i code)).
Proof.
  intros I L. split; [|split; [exact Logic.I|]].
  - split; [|split].
    + destruct c as [[|] [|] [|]]; repeat split; try discriminate; try reflexivity; unfold fqdn_ok, label_ok, ex_key; repeat constructor; cbn; lia.
    + destruct c as [[|] [|] [|]]; cbn; repeat split; try assumption; reflexivity.
    + destruct c as [[|] [|] [|]]; cbn; repeat split; try reflexivity; unfold fqdn_ok, label_ok, short16; cbn; try lia; repeat constructor; cbn; lia.
  - intros bs E. injection E as <-. unfold tsig_to_bytes. cbn [filled_in ts_alg ts_time ts_fudge ts_mac ts_id ts_err ts_other ex_tsig]. rewrite !app_length, skipn_length, !be_length. change (length (fqdn_to_bytes [[104; 109; 97; 99]])) with 6%nat. cbn [length]. lia.
Qed.

(** Two names with the same hash (C84): what is authenticated for one host is accepted for the other, although the sender has never made such a message. *)
Lemma same_written c : packet_to_bytes_compressed c hash_fqdn (two_hosts second_name) = packet_to_bytes_compressed c hash_fqdn (two_hosts first_name) /\ exists m, packet_to_bytes_compressed c hash_fqdn (two_hosts first_name) = Ok m.
Proof. destruct c as [[|] [|] o]; (split; [vm_compute; reflexivity|eexists; vm_compute; reflexivity]). Qed.
Theorem C132_collision_refuted : forall (c : cfg) (mac : bytes -> bytes) (now : N), (forall x, (length (mac x) <= 64)%nat) -> in_time now ex_tsig = true ->
  exists s q out, authenticate c hash_fqdn true mac ex_key ex_tsig (two_hosts first_name) = Ok s /\ packet_plain_ok c q /\ packet_to_bytes c q = Ok out /\ packet_try_from c out = Ok q /\ p_answers q <> p_answers s /\ check c hash_fqdn true mac ex_key now q = Ok true.
Proof.
  intros c mac now L T. destruct (same_written c) as (Es & m & Em). set (r := tsig_record ex_key (filled_in ex_tsig 7 (mac (m ++ variables ex_key ex_tsig)))).
  set (add := fun p => mkPacket (mkheader 7 (hflags (header_new_reply 0 StandardQuery)) 1 2 0 1) (p_questions p) (p_answers p) [] [r]).
  assert (A : forall n, add_additional c (two_hosts n) r = Ok (add (two_hosts n))) by (intros n; destruct c as [[|] [|] [|]]; reflexivity).
  assert (O : packet_plain_ok c (add (two_hosts second_name))).
  { destruct (two_hosts_ok c) as (_ & O2 & O3). split; [repeat split; reflexivity|]. split; [exact O2|]. unfold records_of. cbn [add p_answers p_authorities p_additionals two_hosts app].
    repeat apply Forall_cons; [| |apply tsig_plain_ok; [reflexivity|apply L]|apply Forall_nil]; (apply host_ok; [unfold fqdn_ok, label_ok; repeat constructor; cbn; lia|reflexivity..]). }
  assert (Sm : small_sections (add (two_hosts second_name))) by (unfold small_sections; cbn; lia).
  destruct (C28_plain_roundtrip_partial c _ O Sm) as (out & Eo & R). specialize (R []). rewrite app_nil_r in R.
  exists (add (two_hosts first_name)), (add (two_hosts second_name)), out. split; [unfold authenticate, form; rewrite Em; exact (A first_name)|]. split; [exact O|]. split; [exact Eo|]. split; [exact R|].
  split; [cbn; discriminate|].
  pose proof (check_added c hash_fqdn true mac ex_key now (two_hosts second_name) r (filled_in ex_tsig 7 (mac (m ++ variables ex_key ex_tsig))) _ 7 eq_refl eq_refl (A second_name) eq_refl eq_refl) as X.
  change (packet_set_id (add (two_hosts second_name)) 7) with (add (two_hosts second_name)) in X. rewrite X. cbn [form]. rewrite Es, Em. cbn [rbind r tsig_record rr_name filled_in ts_mac].
  f_equal. rewrite !andb_true_iff. split; [split|]; [apply fqdn_eqb_iff; reflexivity|apply bytes_eqb_iff; reflexivity|exact T].
Qed.

(** With two EDNS options the code depends on the order in which the map lists them: what has been authenticated is then rejected. *)
Theorem C132_order_refuted : forall (c : cfg) (h : hasher), exists (p : packet) (b b' : bytes), packet_ok c p /\ b <> b' /\
  forall (mac : bytes -> bytes) (now : N), mac (b' ++ variables ex_key ex_tsig) <> mac (b ++ variables ex_key ex_tsig) ->
  exists s s', authenticate c h true mac ex_key ex_tsig p = Ok s /\ packet_eqb s s' = true /\ check c h true mac ex_key now s' = Ok false.
Proof.
  intros c h. set (p := with_options [(10, [1; 2]); (15, [0])]). set (p' := with_options [(15, [0]); (10, [1; 2])]).
  assert (O : packet_ok c p) by (destruct c as [[|] [|] [|]]; (split; [repeat split|]; split; [constructor|]; repeat (apply Forall_cons; [split; [|split]|]); try apply Forall_nil; repeat split; try discriminate; try reflexivity; repeat constructor; cbn; try lia; intuition discriminate)).
  assert (W : exists b b', packet_to_bytes_compressed c h p = Ok b /\ packet_to_bytes_compressed c h p' = Ok b' /\ b <> b').
  { destruct c as [[|] [|] [|]]; eexists; eexists; (split; [cbv; reflexivity|]; split; [cbv; reflexivity|discriminate]). }
  destruct W as (b & b' & E & E' & Ne). exists p, b, b'. split; [exact O|]. split; [exact Ne|]. intros mac now Nm.
  set (r := tsig_record ex_key (filled_in ex_tsig 7 (mac (b ++ variables ex_key ex_tsig)))).
  set (add := fun p => mkPacket (mkheader 7 (hflags (header_new_query 0 false)) 0 0 0 2) [] [] [] (p_additionals p ++ [r])).
  assert (A : add_additional c p r = Ok (add p) /\ add_additional c p' r = Ok (add p')) by (destruct c as [[|] [|] [|]]; split; reflexivity). destruct A as (A & A').
  exists (add p), (add p'). split; [unfold authenticate, form; rewrite E; exact A|]. split.
  - apply C127_meaning.
    + repeat constructor; cbn; intuition discriminate.
    + repeat constructor; cbn; intuition discriminate.
    + repeat split; try constructor; [|constructor; [|constructor]]; repeat split. cbn. apply perm_swap.
  - pose proof (check_added c h true mac ex_key now p' r (filled_in ex_tsig 7 (mac (b ++ variables ex_key ex_tsig))) _ 7 eq_refl eq_refl A' eq_refl eq_refl) as X.
    change (packet_set_id (add p') 7) with (add p') in X. rewrite X. cbn [form]. rewrite E'. cbn [rbind r tsig_record rr_name filled_in ts_mac]. f_equal.
    destruct (Api.bytes_eqb _ _) eqn:Y; [|rewrite andb_false_r; reflexivity]. apply bytes_eqb_iff in Y. destruct Nm. symmetry. exact Y.
Qed.

(** A toy code, which is the octets themselves. *)
Example C132_ex : exists s out q, counts_of ex_packet = true_counts ex_packet /\ N.of_nat (length (p_additionals ex_packet)) < 65535 /\ few_options ex_packet /\
  authenticate ex_cfg ex_hash false (fun x => firstn 16 x) ex_key ex_tsig ex_packet = Ok s /\ can_be_sent ex_cfg ex_hash false s /\ form ex_cfg ex_hash false s = Ok out /\
  in_time 1700000300 ex_tsig = true /\ packet_try_from ex_cfg out = Ok q /\ check ex_cfg ex_hash false (fun x => firstn 16 x) ex_key 1700000300 q = Ok true /\
  check ex_cfg ex_hash false (fun x => firstn 16 x) ex_key 1700000301 q = Ok false.
Proof.
  do 3 eexists. split; [reflexivity|]. split; [reflexivity|]. split; [repeat constructor|]. split; [vm_compute; reflexivity|]. split.
  - split; [reflexivity|]. split; [|unfold small_sections; cbn; lia]. destruct ex_packet_plain as (H & Q & R). split; [cbn; repeat split; reflexivity|]. split; [exact Q|].
    unfold records_of in *. cbn [p_answers p_authorities p_additionals] in *. rewrite !Forall_app in *. destruct R as (R1 & R2 & R3). split; [exact R1|]. split; [exact R2|].
    apply Forall_cons; [exact (Forall_inv R3)|]. apply Forall_cons; [|apply Forall_nil].
    apply (tsig_plain_ok ex_cfg 4660 [18; 52; 128; 0; 0; 1; 0; 2; 0; 0; 0; 1; 3; 119; 119; 119]); cbn; lia.
  - split; [vm_compute; reflexivity|]. split; [reflexivity|]. split; [vm_compute; reflexivity|]. split; vm_compute; reflexivity.
Qed.
(** With the code that is the octets themselves nothing can be made without the key. *)
Example C132_ex_only : exists d q, Forall (fun m => can_be_sent ex_cfg ex_hash false (fst m) /\ tsig_fits (snd m)) [(ex_packet, ex_tsig)] /\ byte_list d /\ N.of_nat (length d) <= 9223372036854775807 /\
  packet_try_from ex_cfg d = Ok q /\ check ex_cfg ex_hash false (fun x => x) ex_key 1700000300 q = Ok true /\
  forall p k' t, carries q p k' t -> counts_of p = true_counts p -> can_be_sent ex_cfg ex_hash false p /\ made_with_key ex_cfg ex_hash false (fun x => x) ex_key [(ex_packet, ex_tsig)] (ts_mac t).
Proof.
  assert (S : can_be_sent ex_cfg ex_hash false ex_packet) by (split; [reflexivity|]; split; [exact ex_packet_plain|unfold small_sections; cbn; lia]).
  eexists (ex_bytes (rbind (authenticate ex_cfg ex_hash false (fun x => x) ex_key ex_tsig ex_packet) (packet_to_bytes ex_cfg))), _. split; [|split; [|split; [|split; [vm_compute; reflexivity|split; [vm_compute; reflexivity|]]]]].
  - apply Forall_cons; [|apply Forall_nil]. split; [exact S|]. repeat split; try reflexivity. unfold fqdn_ok, label_ok; repeat constructor; cbn; lia.
  - vm_compute. repeat constructor.
  - vm_compute. discriminate.
  - intros p k' t [F I Q An Au (r & Ad & N' & D)] C. cbn in F, Q, An, Au, Ad. match type of Ad with [?a; ?b] = _ => change [a; b] with ([a] ++ [b]) in Ad end. apply app_inj_tail in Ad. destruct Ad as (Ad & <-). cbn in D. injection D as <-. cbn in I.
    assert (E : p = ex_packet).
    { destruct p as [[i f nq na nu nd] Qs As Us Ds]. cbn in *. subst. unfold counts_of, true_counts in C. cbn in C. injection C as -> -> -> ->. reflexivity. }
    subst p. split; [exact S|]. intros x ->. exists ex_packet, ex_tsig. eexists. split; [left; reflexivity|]. split; vm_compute; reflexivity.
Qed.
Print Assumptions C132_accepted_partial.
Print Assumptions C132_octets.
Print Assumptions C132_only_partial.
Print Assumptions C132_collision_refuted.
Print Assumptions C132_order_refuted.
