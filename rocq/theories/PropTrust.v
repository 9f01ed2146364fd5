(** * Keys recognised by their DS records (C105). *)
From Coq Require Import Lia ZifyBool ZifyNat ZifyN.
From Verif Require Import Base Buffer Fqdn Header Types RDataBasic RDataSec RData Packet Dnssec BaseFacts FqdnFacts CodeSpec CodeFacts RDataSpec RDataReads CompressSpec ChunkFacts
  RecordSpec HeaderSpec DnssecSpec DnssecFacts PacketFacts ObjectSpec PropName PropRecord PropPacket PropDnssec.

(** A packet is written, plain or compressed, within the limits of C28 and C29. *)
Inductive sent (c : cfg) (h : hasher) (p : packet) (out : bytes) : Prop :=
| sent_plain : packet_plain_ok c p -> small_sections p -> packet_to_bytes c p = Ok out -> sent c h p out
| sent_compressed : packet_ok c p -> counts_of p = true_counts p -> hash_separates h (packet_names p) ->
    packet_to_bytes_compressed c h p = Ok out -> N.of_nat (length out) <= 16384 -> sent c h p out.
(** The two inputs are not a collision of the digest function. *)
Definition no_collision (x : prims) (t : digest_type) (f f' : fqdn) (k k' : dnskey) : Prop :=
  hash_data x t (fqdn_to_bytes f ++ dnskey_rdata k) = hash_data x t (fqdn_to_bytes f' ++ dnskey_rdata k') ->
  fqdn_to_bytes f ++ dnskey_rdata k = fqdn_to_bytes f' ++ dnskey_rdata k'.

Lemma sent_arrives c h p out : sent c h p out -> exists p', packet_try_from c out = Ok p' /\ records_of p' = records_of p.
Proof.
  intros [O S E|O C H E L].
  - destruct (C28_plain_roundtrip_partial c p O S) as (bs & Eb & R). rewrite Eb in E. apply Ok_inj in E. subst bs. specialize (R []). rewrite app_nil_r in R.
    eexists. split; [exact R|reflexivity].
  - exists p. split; [|reflexivity]. pose proof (C29_compressed_roundtrip_partial c h p out O C H E L []) as R. rewrite app_nil_r in R. exact R.
Qed.
Lemma rdata_determines k k' : dnskey_rdata k = dnskey_rdata k' -> k = k'.
Proof.
  destruct k as [z s p a pk], k' as [z' s' p' a' pk']. unfold dnskey_rdata. cbn [dk_zone dk_sep dk_protocol dk_alg dk_pk app]. intros E. injection E as E1 E2 E3 E4 E5.
  apply (proj2 (proj2 (proj2 salg_faithful)) a a' I I) in E4. subst. f_equal; [destruct z, z'|destruct s, s']; (reflexivity || discriminate).
Qed.

(** The parent sends a DS record made from a key, the owner of the key sends the key itself, in another message; whoever receives
    both finds the two records, and computes from the received key and its owner name exactly the DS record received. *)
Theorem C105_recognised_partial : forall (c : cfg) (x : prims) (h h' : hasher) (k : dnskey) (t : digest_type) (d : ds) (parent child : packet) (out out' : bytes) (ds_record key_record : rr),
  ds_from_dnskey c x (rr_name key_record) k t = Ok d ->
  In ds_record (records_of parent) -> rr_data ds_record = DDS d -> In key_record (records_of child) -> rr_data key_record = DDNSKEY k ->
  sent c h parent out -> sent c h' child out' ->
  exists parent' child' ds_record' key_record' d' k',
    packet_try_from c out = Ok parent' /\ packet_try_from c out' = Ok child' /\
    In ds_record' (records_of parent') /\ rr_data ds_record' = DDS d' /\ In key_record' (records_of child') /\ rr_data key_record' = DDNSKEY k' /\
    rr_name key_record' = rr_name key_record /\ ds_from_dnskey c x (rr_name key_record') k' (ds_dt d') = Ok d'.
Proof.
  intros c x h h' k t d pa ch out out' dr kr E I1 D1 I2 D2 S1 S2. destruct (sent_arrives _ _ _ _ S1) as (pa' & R1 & Q1). destruct (sent_arrives _ _ _ _ S2) as (ch' & R2 & Q2).
  exists pa', ch', dr, kr, d, k. rewrite Q1, Q2. do 6 (split; [assumption|]). split; [reflexivity|].
  replace (ds_dt d) with t; [exact E|]. unfold ds_from_dnskey in E. apply rbind_ok in E. destruct E as (tag & _ & E). apply Ok_inj in E. subst d. reflexivity.
Qed.
(** No other key, and the key at no other name, is taken for it, digest collisions apart. *)
Theorem C105_only : forall (c : cfg) (x : prims) (f f' : fqdn) (k k' : dnskey) (t : digest_type) (d : ds), fqdn_ok f -> fqdn_ok f' -> no_collision x t f f' k k' ->
  ds_from_dnskey c x f k t = Ok d -> (ds_from_dnskey c x f' k' t = Ok d <-> f' = f /\ k' = k).
Proof.
  intros c x f f' k k' t d O O' N E. split; [|intros (-> & ->); exact E]. intros E'. unfold ds_from_dnskey in E, E'.
  apply rbind_ok in E. destruct E as (tag & _ & E). apply Ok_inj in E. apply rbind_ok in E'. destruct E' as (tag' & _ & E'). apply Ok_inj in E'.
  rewrite <- E in E'. injection E' as _ _ E'. rewrite !dnskey_rdata_eq in E'. symmetry in E'. apply N in E'.
  destruct (name_split f f' _ _ O O' E') as (-> & E''). apply rdata_determines in E''. auto.
Qed.
(** False: a key received under the same name in another upper and lower case spelling is never recognised, collisions apart
    (RFC 4034, 5.1.4 and 6.2, have the name in lower case). *)
Theorem C105_spelling_refuted : forall (c : cfg) (x : prims) (f f' : fqdn) (k : dnskey) (t : digest_type) (d : ds), fqdn_ok f -> fqdn_ok f' -> no_collision x t f f' k k ->
  same_name f f' -> f <> f' -> ds_from_dnskey c x f k t = Ok d -> ds_from_dnskey c x f' k t <> Ok d.
Proof. intros c x f f' k t d O O' N _ D E E'. apply (C105_only c x f f' k k t d O O' N E) in E'. apply D. symmetry. apply E'. Qed.

Definition ex_parent (d : ds) : packet := mkPacket (mkheader 7 (hflags (header_new_reply 0 StandardQuery)) 1 1 0 0) [ex_question] [mkRR ex_www DS false CIN 3600 (DDS d)] [] [].
Definition ex_child : packet := mkPacket (mkheader 8 (hflags (header_new_reply 0 StandardQuery)) 1 2 0 0) [ex_question]
  [mkRR ex_www DNSKEY false CIN 3600 (DDNSKEY (ex_key ED448 [9])); mkRR ex_www DNSKEY false CIN 3600 (DDNSKEY (ex_key ED25519 [1; 2; 3]))] [] [].
Example C105_ex : exists (d : ds) (out out' : bytes), ds_from_dnskey ex_cfg toy ex_www (ex_key ED25519 [1; 2; 3]) DtSHA256 = Ok d /\
  sent ex_cfg ex_hash (ex_parent d) out /\ sent ex_cfg ex_hash ex_child out'.
Proof.
  eexists. eexists. eexists. split; [vm_compute; reflexivity|]. split.
  - apply sent_plain; [|repeat split; discriminate|vm_compute; reflexivity].
    split; [repeat split|]. split; [repeat constructor; apply C22_ex|].
    repeat (apply Forall_cons); try apply Forall_nil; (split; [split; [|split]|split; [exact I|intros bs E; injection E as <-; vm_compute; discriminate]]).
    all: try (repeat split; try discriminate; try reflexivity; unfold fqdn_ok, label_ok; repeat constructor; cbn; lia).
  - apply sent_compressed; [|reflexivity|apply separates_b_true; vm_compute; reflexivity|vm_compute; reflexivity|vm_compute; discriminate].
    split; [repeat split|]. split; [repeat constructor; apply C22_ex|].
    repeat (apply Forall_cons); try apply Forall_nil; (split; [|split]).
    all: try (repeat split; try discriminate; try reflexivity; unfold fqdn_ok, label_ok; repeat constructor; cbn; lia).
Qed.
Example C105_ex_spelling : let f := [[87; 119]] in let f' := [[119; 119]] in let k := ex_key ED25519 [1; 2; 3] in
  fqdn_ok f /\ fqdn_ok f' /\ same_name f f' /\ f <> f' /\ no_collision toy DtSHA256 f f' k k /\ exists d, ds_from_dnskey ex_cfg toy f k DtSHA256 = Ok d.
Proof.
  cbv zeta. split; [unfold fqdn_ok, label_ok; repeat constructor; cbn; lia|]. split; [unfold fqdn_ok, label_ok; repeat constructor; cbn; lia|]. split; [reflexivity|].
  split; [discriminate|]. split; [intros E; vm_compute in E; discriminate E|]. eexists. vm_compute. reflexivity.
Qed.
Print Assumptions C105_recognised_partial.
Print Assumptions C105_only.
Print Assumptions C105_spelling_refuted.
