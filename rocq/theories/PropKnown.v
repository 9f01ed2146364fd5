(** * C128: answers that the asker knows already are left out, and no others *)
From Coq Require Import Lia ZifyBool ZifyNat ZifyN Permutation.
From Verif Require Import Base Buffer Fqdn Header Types RDataBasic RDataSec Svcb Bitmap RData Packet BaseFacts FqdnFacts CodeSpec RDataSpec RDataReads CompressSpec ChunkFacts
  RecordSpec HeaderSpec PacketFacts ObjectSpec ObjectFacts Api Equality EqualityFacts PropName PropRecord PropPacket PropCut PropTrust PropEqual.

(** ** What users write (RFC 6762, 7.1 and 7.2)

    Who asks puts the answers it holds into the answer section of its query, or of several ones if they are many, each with the time that is left to it and
    without the cache flush bit.  Who answers leaves out what is among them with at least half of its time. *)
Definition knows (k r : rr) : bool :=
  fqdn_eqb (rr_name k) (rr_name r) && rtype_eqb (rr_type k) (rr_type r) && rclass_eqb (rr_class k) (rr_class r) && rdata_eqb (rr_data k) (rr_data r) && (rr_ttl r <=? 2 * rr_ttl k).
Definition left_to_say (got : list packet) (mine : list rr) : list rr := filter (fun r => negb (existsb (fun k => knows k r) (flat_map p_answers got))) mine.
(** A record after [n] seconds, as it is put into a query. *)
Definition noted (n : N) (r : rr) : rr := rr_set_flush (rr_set_ttl r (rr_ttl r - n)) false.
Definition still_good (n : N) (r : rr) : bool := rr_ttl r <=? 2 * (rr_ttl r - n).

(** ** What is meant *)
Definition same_answer (k r : rr) : Prop := rr_name k = rr_name r /\ rr_type k = rr_type r /\ rr_class k = rr_class r /\ same_data (rr_data k) (rr_data r).
Definition known (ks : list rr) (r : rr) : Prop := exists k, In k ks /\ same_answer k r /\ rr_ttl r <= 2 * rr_ttl k.
(** All messages have been sent and read. *)
Definition delivered (c : cfg) (ms : list (packet * bytes)) (got : list packet) : Prop := Forall2 (fun m p' => packet_try_from c (snd m) = Ok p') ms got.

Lemma sent_maps c h p out : sent c h p out -> maps_in p.
Proof. intros [O _ _|O _ _ _ _]; [|exact (ok_maps c p O)]. destruct O as (_ & _ & F). unfold maps_in. eapply Forall_impl; [|exact F]. intros r ((_ & T & _) & _). exact (typed_map c _ T). Qed.
Lemma answers_arrive c h p out : sent c h p out -> exists p', packet_try_from c out = Ok p' /\ p_answers p' = p_answers p.
Proof.
  intros [O S E|O C H E L].
  - destruct (C28_plain_roundtrip_partial c p O S) as (bs & Eb & R). rewrite Eb in E. apply Ok_inj in E. subst bs. specialize (R []). rewrite app_nil_r in R. eexists. split; [exact R|reflexivity].
  - exists p. split; [|reflexivity]. pose proof (C29_compressed_roundtrip_partial c h p out O C H E L []) as R. rewrite app_nil_r in R. exact R.
Qed.
Lemma knows_iff k r : a_map (rr_data k) -> a_map (rr_data r) -> (knows k r = true <-> same_answer k r /\ rr_ttl r <= 2 * rr_ttl k).
Proof.
  intros Mk Mr. unfold knows, same_answer. rewrite !andb_true_iff, fqdn_eqb_iff, (rtype_iff _ _), (rclass_iff _ _), rdata_eqb_iff, N.leb_le by assumption. tauto.
Qed.
Lemma all_arrive c ms : Forall (fun m => exists h, sent c h (fst m) (snd m)) ms ->
  exists got, delivered c ms got /\ flat_map p_answers got = flat_map p_answers (map fst ms) /\ Forall (fun r => a_map (rr_data r)) (flat_map p_answers got).
Proof.
  intros F. induction F as [|(p, out) ms (h & S) F (got & D & E & M)]; [exists []; repeat constructor|]. cbn [fst snd] in S.
  destruct (answers_arrive c h p out S) as (p' & R & Q). exists (p' :: got). split; [constructor; assumption|]. cbn [flat_map map fst]. rewrite E, Q in *. split; [reflexivity|].
  apply Forall_app. split; [|exact M]. pose proof (sent_maps c h p out S) as Mp. unfold maps_in, records_of in Mp. rewrite !Forall_app in Mp. tauto.
Qed.

(** Whatever answers the asker puts into its messages, however many, in whatever order and form: exactly those are left out that it has said it knows. *)
Theorem C128_exact_partial : forall (c : cfg) (ms : list (packet * bytes)), Forall (fun m => exists h, sent c h (fst m) (snd m)) ms ->
  exists got, delivered c ms got /\
  forall (mine : list rr) (r : rr), Forall (fun r => a_map (rr_data r)) mine -> (In r (left_to_say got mine) <-> In r mine /\ ~ known (flat_map p_answers (map fst ms)) r).
Proof.
  intros c ms F. destruct (all_arrive c ms F) as (got & D & E & M). exists got. split; [exact D|]. intros mine r Mm. rewrite <- E. unfold left_to_say. rewrite filter_In, negb_true_iff.
  rewrite Forall_forall in M, Mm. split; intros (I & K); (split; [exact I|]).
  - intros (k & Ik & A & L). enough (X : existsb (fun k => knows k r) (flat_map p_answers got) = true) by congruence. apply existsb_exists. exists k. split; [exact Ik|].
    apply knows_iff; [apply M, Ik|apply Mm, I|split; assumption].
  - destruct (existsb _ _) eqn:X; [|reflexivity]. apply existsb_exists in X. destruct X as (k & Ik & X). apply knows_iff in X; [|apply M, Ik|apply Mm, I]. destruct K. exists k. split; [exact Ik|exact X].
Qed.

(** From one to the other and back: the answers of a message are received, noted, and put into queries [n] seconds later as far as they are still good.
    Those that are not so any more are said again, and no others. *)
Theorem C128_round_partial : forall (c : cfg) (h : hasher) (p : packet) (out : bytes) (n : N) (ms : list (packet * bytes)), sent c h p out ->
  exists p', packet_try_from c out = Ok p' /\
  (flat_map p_answers (map fst ms) = map (noted n) (filter (still_good n) (p_answers p')) -> Forall (fun m => exists h, sent c h (fst m) (snd m)) ms ->
   exists got, delivered c ms got /\
   forall r, In r (p_answers p) ->
     (2 * n <= rr_ttl r -> ~ In r (left_to_say got (p_answers p))) /\
     ((forall r', In r' (p_answers p) -> same_answer r' r -> rr_ttl r' = rr_ttl r) -> rr_ttl r < 2 * n -> rr_ttl r <> 0 -> In r (left_to_say got (p_answers p)))).
Proof.
  intros c h p out n ms S. destruct (answers_arrive c h p out S) as (p' & R & Q). exists p'. split; [exact R|]. rewrite Q. intros E F.
  destruct (C128_exact_partial c ms F) as (got & D & X). exists got. split; [exact D|]. intros r I.
  assert (M : Forall (fun r => a_map (rr_data r)) (p_answers p)) by (pose proof (sent_maps c h p out S) as Mp; unfold maps_in, records_of in Mp; rewrite !Forall_app in Mp; tauto).
  rewrite (X _ r M), E. split.
  - intros L (_ & K). apply K. exists (noted n r). split; [|split].
    + apply in_map. apply filter_In. split; [exact I|]. unfold still_good. lia.
    + repeat split. apply same_data_refl.
    + unfold noted; cbn [rr_set_flush rr_set_ttl rr_ttl]. lia.
  - intros Same L Z. split; [exact I|]. intros (k & Ik & A & Lk). apply in_map_iff in Ik. destruct Ik as (r' & <- & I'). apply filter_In in I'. destruct I' as (I' & G).
    assert (T : rr_ttl r' = rr_ttl r) by (apply Same; [exact I'|exact A]). unfold still_good in G. lia.
Qed.

(** A query with known answers. *)
Definition ex_knows (l : list rr) : packet := mkPacket (mkheader 7 (hflags (header_new_query 0 false)) 0 (N.of_nat (length l)) 0 0) [] l [] [].
Lemma host_ok c f n a : fqdn_ok f -> n < 4294967296 -> a < 4294967296 -> rr_plain_ok c (mkRR f A false CIN n (DA a)).
Proof.
  intros F L La. split; [|split; [exact Logic.I|intros bs E; injection E as <-; vm_compute; discriminate]]. split; [|split].
  - destruct c as [[|] [|] [|]]; repeat split; try assumption; try discriminate; reflexivity.
  - destruct c as [[|] [|] [|]]; repeat split; try assumption; try reflexivity; discriminate.
  - destruct c as [[|] [|] [|]]; repeat split; try assumption; try reflexivity; discriminate.
Qed.
Lemma ex_name_ok : fqdn_ok ex_www. Proof. unfold fqdn_ok, label_ok, ex_www. repeat constructor; cbn; lia. Qed.
Lemma knows_ok c l : Forall (rr_plain_ok c) l -> (length l < 1000)%nat -> packet_plain_ok c (ex_knows l) /\ small_sections (ex_knows l).
Proof.
  intros F L. split; [|unfold small_sections; cbn; lia]. split; [unfold header_typed; cbn -[N.of_nat]; lia|]. split; [constructor|]. unfold records_of. cbn. rewrite app_nil_r. exact F.
Qed.
(** Records cannot be compared with [==] for this: what the asker knows is never equal to what the responder has, which is marked with the flush bit. *)
Theorem C128_whole_refuted : forall (c : cfg) (h : hasher), exists (p : packet) (out : bytes) (r : rr), sent c h p out /\ p_answers p = [noted 0 r] /\ known (p_answers p) r /\
  exists p', packet_try_from c out = Ok p' /\ existsb (fun k => rr_eqb k r) (p_answers p') = false.
Proof.
  intros c h. set (r := mkRR ex_www A true CIN 120 (DA 16909060)). exists (ex_knows [noted 0 r]).
  assert (O : packet_plain_ok c (ex_knows [noted 0 r]) /\ small_sections (ex_knows [noted 0 r])) by (apply knows_ok; [apply Forall_cons; [|apply Forall_nil]; apply (host_ok c ex_www 120 16909060); [exact ex_name_ok|reflexivity..]|cbn; lia]).
  destruct O as (O & Sm).
  destruct c as [[|] [|] [|]]; eexists; exists r; (split; [apply sent_plain; [exact O|exact Sm|vm_compute; reflexivity]|]).
  all: try (split; [reflexivity|]; split; [exists (noted 0 r); split; [left; reflexivity|]; split; [repeat split|cbn; lia]|]; eexists; split; [vm_compute; reflexivity|reflexivity]).
Qed.
(** Nor is an answer known whose name is the same but for upper and lower case. *)
Theorem C128_case_refuted : forall (c : cfg) (h : hasher), exists (p : packet) (out : bytes) (k r : rr), sent c h p out /\ p_answers p = [k] /\
  same_name (rr_name k) (rr_name r) /\ rr_type k = rr_type r /\ rr_class k = rr_class r /\ rr_ttl k = rr_ttl r /\ rr_data k = rr_data r /\
  exists p', packet_try_from c out = Ok p' /\ left_to_say [p'] [r] = [r].
Proof.
  intros c h. set (k := mkRR [[87; 87; 87]; [101;120;97;109;112;108;101]; [99;111;109]] A false CIN 120 (DA 16909060)). exists (ex_knows [k]).
  assert (O : packet_plain_ok c (ex_knows [k]) /\ small_sections (ex_knows [k])) by (apply knows_ok; [apply Forall_cons; [|apply Forall_nil]; apply host_ok; [unfold fqdn_ok, label_ok; repeat constructor; cbn; lia|reflexivity..]|cbn; lia]).
  destruct O as (O & Sm).
  destruct c as [[|] [|] [|]]; eexists; exists k, (rr_set_name k ex_www); (split; [apply sent_plain; [exact O|exact Sm|vm_compute; reflexivity]|]).
  all: try (do 6 (split; [reflexivity|]); eexists; split; [vm_compute; reflexivity|reflexivity]).
Qed.

(** Two messages of known answers, one of which is not good any more. *)
Definition ex_host (l : N) (ttl : N) : rr := mkRR ([l] :: ex_www) A false CIN ttl (DA l).
Example C128_ex : exists o1 o2, Forall (fun m => exists h, sent ex_cfg h (fst m) (snd m)) [(ex_knows [ex_host 97 60], o1); (ex_knows [ex_host 98 59; ex_host 99 120], o2)] /\
  left_to_say [ex_knows [ex_host 97 60]; ex_knows [ex_host 98 59; ex_host 99 120]] [ex_host 97 120; ex_host 98 120; ex_host 99 120; ex_host 100 120] = [ex_host 98 120; ex_host 100 120] /\
  map (noted 60) (filter (still_good 60) [ex_host 97 120; ex_host 98 119]) = [ex_host 97 60].
Proof.
  eexists. eexists. split; [|split; reflexivity].
  repeat (apply Forall_cons; [exists ex_hash; apply sent_plain; [apply knows_ok|apply (knows_ok ex_cfg)|vm_compute; reflexivity]|]); try apply Forall_nil.
  all: try (cbn; lia).
  all: repeat apply Forall_cons; try apply Forall_nil; (apply host_ok; [unfold fqdn_ok, label_ok, ex_www; repeat constructor; cbn; lia|reflexivity..]).
Qed.
Print Assumptions C128_exact_partial.
Print Assumptions C128_round_partial.
Print Assumptions C128_whole_refuted.
Print Assumptions C128_case_refuted.
