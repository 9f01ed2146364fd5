(** * C130: services that are offered are found *)
From Coq Require Import Lia ZifyBool ZifyNat ZifyN.
From Verif Require Import Base Buffer Fqdn Header Types RDataBasic RDataSec Svcb Bitmap RData Packet BaseFacts FqdnFacts CodeSpec RDataSpec RDataReads CompressSpec ChunkFacts
  RecordSpec HeaderSpec PacketFacts ObjectSpec ObjectFacts Api Equality EqualityFacts PropName PropRecord PropPacket PropCut PropTrust PropEqual PropKnown.

(** ** What a user writes (RFC 6763)

    The PTR records of a kind of service name its instances, the SRV records of an instance its hosts and ports, the A and AAAA records of a host its addresses.
    The records may have come in any messages, in any of their sections. *)
Definition records_named (rs : list rr) (f : fqdn) : list rdata := map rr_data (filter (fun r => fqdn_eqb (rr_name r) f && rclass_eqb (rr_class r) CIN) rs).
Definition instances (rs : list rr) (kind : fqdn) : list fqdn := flat_map (fun d => match d with DPTR i => [i] | _ => [] end) (records_named rs kind).
Definition hosts (rs : list rr) (i : fqdn) : list srv := flat_map (fun d => match d with DSRV s => [s] | _ => [] end) (records_named rs i).
Definition addresses (rs : list rr) (h : fqdn) : list rdata := filter (fun d => match d with DA _ | DAAAA _ => true | _ => false end) (records_named rs h).
Definition texts (rs : list rr) (i : fqdn) : list (list bytes) := flat_map (fun d => match d with DTXT t => [t] | _ => [] end) (records_named rs i).
Definition resolve_instance (rs : list rr) (i : fqdn) : list (srv * rdata) := flat_map (fun s => map (pair s) (addresses rs (srv_target s))) (hosts rs i).
Definition browse (rs : list rr) (kind : fqdn) : list (fqdn * srv * rdata) := flat_map (fun i => map (fun sa => (i, fst sa, snd sa)) (resolve_instance rs i)) (instances rs kind).

(** ** What is meant *)
Definition says (rs : list rr) (f : fqdn) (d : rdata) : Prop := exists r, In r rs /\ rr_name r = f /\ rr_class r = CIN /\ rr_data r = d.
Definition is_address (d : rdata) : Prop := exists a, d = DA a \/ d = DAAAA a.
Definition offered (rs : list rr) (kind i : fqdn) (s : srv) (a : rdata) : Prop :=
  says rs kind (DPTR i) /\ says rs i (DSRV s) /\ says rs (srv_target s) a /\ is_address a.

Lemma named_in rs f d : In d (records_named rs f) <-> says rs f d.
Proof.
  unfold records_named, says. rewrite in_map_iff. split.
  - intros (r & E & I). apply filter_In in I. destruct I as (I & K). apply andb_prop in K. destruct K as (K1 & K2). apply fqdn_eqb_iff in K1. apply (proj1 (rclass_iff _ _)) in K2. exists r. auto.
  - intros (r & I & E1 & E2 & E3). exists r. split; [exact E3|]. apply filter_In. split; [exact I|]. apply andb_true_intro. split; [apply fqdn_eqb_iff, E1|apply (proj2 (rclass_iff _ _)), E2].
Qed.
Lemma instances_in rs k i : In i (instances rs k) <-> says rs k (DPTR i).
Proof.
  unfold instances. rewrite in_flat_map, <- named_in. split; [intros (d & I & K); destruct d; try destruct K; destruct K as [<-|[]] || subst; try contradiction; exact I|].
  intros I. exists (DPTR i). split; [exact I|left; reflexivity].
Qed.
Lemma hosts_in rs i s : In s (hosts rs i) <-> says rs i (DSRV s).
Proof.
  unfold hosts. rewrite in_flat_map, <- named_in. split; [intros (d & I & K); destruct d; cbn in K; try contradiction; destruct K as [<-|[]]; exact I|].
  intros I. exists (DSRV s). split; [exact I|left; reflexivity].
Qed.
Lemma texts_in rs i t : In t (texts rs i) <-> says rs i (DTXT t).
Proof.
  unfold texts. rewrite in_flat_map, <- named_in. split; [intros (d & I & K); destruct d; cbn in K; try contradiction; destruct K as [<-|[]]; exact I|].
  intros I. exists (DTXT t). split; [exact I|left; reflexivity].
Qed.
Lemma addresses_in rs h a : In a (addresses rs h) <-> says rs h a /\ is_address a.
Proof.
  unfold addresses, is_address. rewrite filter_In, named_in. split; intros (S & K); (split; [exact S|]).
  - destruct a; try discriminate K; eauto.
  - destruct K as (x & [->| ->]); reflexivity.
Qed.
Lemma resolve_in rs i s a : In (s, a) (resolve_instance rs i) <-> says rs i (DSRV s) /\ says rs (srv_target s) a /\ is_address a.
Proof.
  unfold resolve_instance. rewrite in_flat_map. split.
  - intros (s' & I & K). apply in_map_iff in K. destruct K as (a' & E & Ia). injection E as -> ->. apply hosts_in in I. apply addresses_in in Ia. tauto.
  - intros (S & A). exists s. split; [apply hosts_in, S|]. apply in_map. apply addresses_in, A.
Qed.
Lemma browse_in rs k i s a : In (i, s, a) (browse rs k) <-> offered rs k i s a.
Proof.
  unfold browse, offered. rewrite in_flat_map. split.
  - intros (i' & I & K). apply in_map_iff in K. destruct K as ((s', a') & E & Ir). cbn [fst snd] in E. injection E as -> -> ->. apply instances_in in I. apply resolve_in in Ir. tauto.
  - intros (P & R). exists i. split; [apply instances_in, P|]. apply in_map_iff. exists (s, a). split; [reflexivity|]. apply resolve_in, R.
Qed.
Lemma records_arrive c ms : Forall (fun m => exists h, sent c h (fst m) (snd m)) ms -> exists got, delivered c ms got /\ flat_map records_of got = flat_map records_of (map fst ms).
Proof.
  intros F. induction F as [|(p, out) ms (h & S) F (got & D & E)]; [exists []; split; [constructor|reflexivity]|]. cbn [fst snd] in S.
  destruct (sent_arrives c h p out S) as (p' & R & Q). exists (p' :: got). split; [constructor; assumption|]. cbn [flat_map map fst]. rewrite E, Q. reflexivity.
Qed.

(** Whatever messages have been sent, by whomever: who has received them finds exactly the services that were offered, and their texts. *)
Theorem C130_found_partial : forall (c : cfg) (ms : list (packet * bytes)), Forall (fun m => exists h, sent c h (fst m) (snd m)) ms ->
  exists got, delivered c ms got /\ let rs := flat_map records_of (map fst ms) in let rs' := flat_map records_of got in
  (forall (kind i : fqdn) (s : srv) (a : rdata), In (i, s, a) (browse rs' kind) <-> offered rs kind i s a) /\
  (forall (i : fqdn) (t : list bytes), In t (texts rs' i) <-> says rs i (DTXT t)).
Proof.
  intros c ms F. destruct (records_arrive c ms F) as (got & D & E). exists got. split; [exact D|]. cbv zeta. rewrite E. split; intros; [apply browse_in|apply texts_in].
Qed.
(** An instance that was shown to a user as text and is made from it again is found again if no label has a dot in it, ... *)
Theorem C130_again_partial : forall (rs : list rr) (kind i : fqdn) (s : srv) (a : rdata), offered rs kind i s a -> Forall (fun l => l <> [] /\ ~ In 46 l) i ->
  In (s, a) (resolve_instance rs (fqdn_new (fqdn_display i))).
Proof. intros rs kind i s a (_ & O) L. rewrite C10_display_injective by exact L. apply resolve_in, O. Qed.
(** ... but names of instances are written for people and may have one (RFC 6763, 4.1.1 and 4.3): such an instance is lost, or another is taken for it. *)
Definition ex_kind : fqdn := [[95; 105; 112; 112]; [95; 116; 99; 112]; [108; 111; 99; 97; 108]].
Definition ex_dot : fqdn := [68; 114; 46; 32; 87] :: ex_kind.
Definition ex_offers : packet := mkPacket (mkheader 0 (hflags (header_new_reply 0 StandardQuery)) 0 1 0 2) []
  [mkRR ex_kind PTR false CIN 120 (DPTR ex_dot)] [] [mkRR ex_dot SRV false CIN 120 (DSRV (mkSrv 0 0 631 ex_www)); mkRR ex_www A false CIN 120 (DA 7)].
Lemma kind_ok : fqdn_ok ex_kind /\ fqdn_ok ex_dot. Proof. split; unfold fqdn_ok, label_ok, ex_dot, ex_kind; repeat constructor; cbn; lia. Qed.
Lemma offers_ok c : packet_plain_ok c ex_offers /\ small_sections ex_offers.
Proof.
  destruct kind_ok as (K & D). pose proof ex_name_ok as W.
  split; [|unfold small_sections; cbn; lia]. split; [unfold header_typed; cbn; lia|]. split; [constructor|].
  apply Forall_cons; [|apply Forall_cons; [|apply Forall_cons; [apply host_ok; [exact W|reflexivity..]|apply Forall_nil]]].
  - split; [|split; [exact Logic.I|intros bs E; injection E as <-; vm_compute; discriminate]]. split; [|split; [|exact D]]; destruct c as [[|] [|] [|]]; repeat split; try assumption; try discriminate; reflexivity.
  - split; [|split; [exact Logic.I|intros bs E; injection E as <-; vm_compute; discriminate]]. split; [|split; [|exact W]]; destruct c as [[|] [|] [|]]; repeat split; try assumption; try discriminate; reflexivity.
Qed.
Theorem C130_dot_refuted : forall (c : cfg) (h : hasher), exists (p : packet) (out : bytes) (kind i : fqdn) (s : srv) (a : rdata), sent c h p out /\ offered (records_of p) kind i s a /\
  exists p', packet_try_from c out = Ok p' /\ In (i, s, a) (browse (records_of p') kind) /\ resolve_instance (records_of p') (fqdn_new (fqdn_display i)) = [].
Proof.
  intros c h. destruct (offers_ok c) as (O & S). destruct (C28_plain_roundtrip_partial c _ O S) as (bs & E & R). specialize (R []). rewrite app_nil_r in R.
  exists ex_offers, bs, ex_kind, ex_dot, (mkSrv 0 0 631 ex_www), (DA 7). split; [apply sent_plain; assumption|].
  assert (Of : offered (records_of ex_offers) ex_kind ex_dot (mkSrv 0 0 631 ex_www) (DA 7)) by (apply browse_in; cbn; auto). split; [exact Of|].
  eexists. split; [exact R|]. split; [apply browse_in, Of|reflexivity].
Qed.
Example C130_ex : forall c : cfg, exists b, Forall (fun m => exists h, sent c h (fst m) (snd m)) [(ex_offers, b)] /\ browse (records_of ex_offers) ex_kind = [(ex_dot, mkSrv 0 0 631 ex_www, DA 7)] /\
  offered [mkRR ex_kind PTR false CIN 120 (DPTR ex_ftp); mkRR ex_ftp SRV false CIN 120 (DSRV (mkSrv 0 0 631 ex_www)); mkRR ex_www A false CIN 120 (DA 7)] ex_kind ex_ftp (mkSrv 0 0 631 ex_www) (DA 7) /\
  Forall (fun l => l <> [] /\ ~ In 46 l) ex_ftp.
Proof.
  intros c. destruct (offers_ok c) as (O & S). destruct (C28_plain_roundtrip_partial c _ O S) as (bs & E & _). exists bs. split; [apply Forall_cons; [exists ex_hash; apply sent_plain; assumption|apply Forall_nil]|].
  split; [reflexivity|]. split; [apply browse_in; cbn; auto|]. repeat constructor; try discriminate; cbn; intuition discriminate.
Qed.
Print Assumptions C130_found_partial.
Print Assumptions C130_again_partial.
Print Assumptions C130_dot_refuted.
