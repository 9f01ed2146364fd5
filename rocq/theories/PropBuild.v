(** * C69, C70: the builds of the crate agree. *)
From Coq Require Import Lia ZifyNat ZifyN.
From Verif Require Import Base Buffer Fqdn Header Types RDataBasic Bitmap Svcb RDataSec RData Packet Dnssec CodeSpec ApiSpec RecordSpec BaseFacts NameSpec HeaderSpec WireSpec
  SvcbParse MdnsFacts ReadSpec BuildSpec BuildFacts PropBuffer PropPacket PropWire.

(** ** C69: debug and release *)
(** Reading a message. *)
Theorem C69_parse : forall (c : cfg) (d : bytes), same_unless_panic (packet_try_from (debug c) d) (packet_try_from (release c) d).
Proof.
  intros c d. apply agr_panic, ag_packet; try reflexivity; intros; try apply agr_refl; [apply dr_add|apply dr_sub|apply dr_mul].
Qed.
(** Writing a packet, in both forms, and its size. *)
Theorem C69_write : forall (c : cfg) (h : hasher) (p : packet),
  same_unless_panic (packet_to_bytes (debug c) p) (packet_to_bytes (release c) p) /\
  same_unless_panic (packet_to_bytes_compressed (debug c) h p) (packet_to_bytes_compressed (release c) h p) /\
  same_unless_panic (packet_byte_size (debug c) p) (packet_byte_size (release c) p).
Proof.
  intros c h p. repeat split; apply agr_panic; [apply ag_pbytes|apply ag_pcomp|apply ag_psize]; try reflexivity; intros; first [apply dr_add|apply dr_sub|apply dr_mul].
Qed.
(** Any sequence of calls on a packet. *)
Theorem C69_history : forall (c : cfg) (ks : list call) (p : packet), same_unless_panic (history (debug c) ks p) (history (release c) ks p).
Proof. intros c ks p. apply agr_panic, ag_history; try reflexivity. intros. apply dr_add. Qed.
(** DNSSEC: key tags, digests of keys, signing, verifying, canonical order. *)
Theorem C69_dnssec : forall (c : cfg) (x : prims) (bs : bsearch) (owner : fqdn) (k : dnskey) (dt : digest_type) (seed key : bytes) (s : rrset) (r : rrsig) (inc ex : time),
  same_unless_panic (compute_key_tag (debug c) k) (compute_key_tag (release c) k) /\
  same_unless_panic (ds_from_dnskey (debug c) x owner k dt) (ds_from_dnskey (release c) x owner k dt) /\
  same_unless_panic (rrsig_from_dnskey (debug c) x bs seed k s inc ex key) (rrsig_from_dnskey (release c) x bs seed k s inc ex key) /\
  same_unless_panic (rrsig_verify (debug c) x bs r k s) (rrsig_verify (release c) x bs r k s) /\
  same_unless_panic (canonical_reorder (debug c) s) (canonical_reorder (release c) s).
Proof.
  intros. repeat split; apply agr_panic; [apply ag_tag|apply ag_ds|apply ag_sign|apply ag_verify|apply ag_reorder]; try reflexivity; intros;
    first [apply dr_add|apply dr_sub|apply dr_mul].
Qed.
(** They do differ: a message accepted by a release build only, and a packet written by it only. *)
Definition overlong_window : bytes := [0;0; 0;0; 0;0; 0;1; 0;0; 0;0; 0; 0;62; 0;1; 0;0;0;0; 0;41; 0;0;0;0; 0;0; 255; 33] ++ repeat 0 32 ++ [64].
Theorem C69_differ_parse : forall c : cfg, byte_list overlong_window /\ packet_try_from (debug c) overlong_window = Panic /\
  exists p, packet_try_from (release c) overlong_window = Ok p.
Proof.
  intros c. split; [repeat constructor|]. split; [destruct c as [[|] [|] o]; vm_compute; reflexivity|].
  eexists. destruct c as [[|] [|] o]; vm_compute; reflexivity.
Qed.
Theorem C69_differ_write : forall (c : cfg) (h : hasher), exists (p : packet) (bs : bytes),
  packet_to_bytes (debug c) p = Panic /\ packet_to_bytes (release c) p = Ok bs.
Proof.
  intros c h. destruct (C49_panic_refuted (debug c) h eq_refl) as (p & T & E & _). exists p.
  destruct (C49_release (release c) h p eq_refl T) as [[bs W] _]. exists bs. split; assumption.
Qed.
Example C69_ex : packet_try_from (debug ex_cfg) ex_message = packet_try_from (release ex_cfg) ex_message /\
  packet_to_bytes (debug ex_cfg) ex_packet = packet_to_bytes (release ex_cfg) ex_packet /\ packet_to_bytes (debug ex_cfg) ex_packet <> Panic.
Proof. repeat split; vm_compute; try reflexivity. discriminate. Qed.
Print Assumptions C69_parse.
Print Assumptions C69_write.
Print Assumptions C69_history.
Print Assumptions C69_dnssec.
Print Assumptions C69_differ_parse.
Print Assumptions C69_differ_write.

(** ** C70: the features *)
(** Feature dnssec: messages are read the same unless the build without it meets one of four type numbers, which it reports. *)
Theorem C70_dnssec_parse : forall (c : cfg) (d : bytes), same_unless_dnssec (packet_try_from (without_dnssec c) d) (packet_try_from (with_dnssec c) d).
Proof. intros c d. apply agr_dnssec, ag_packet; try reflexivity; intros; first [apply sd_rtype|apply sd_qtype|apply agr_refl]. Qed.
(** It reads exactly the packets in which no DNSSEC type is spoken of. *)
Theorem C70_dnssec_accepts : forall (c : cfg) (d : bytes) (p : packet), byte_list d -> allocatable d ->
  packet_try_from (without_dnssec c) d = Ok p <->
  packet_try_from (with_dnssec c) d = Ok p /\ forall t, In t (types_in p) -> ~ In (rtype_code t) dnssec_numbers.
Proof.
  intros c d p B A. rewrite !C34_exact by assumption. split.
  - intros (e & H). apply packet_without in H as [H F]. split; [exists e; exact H|exact F].
  - intros [(e & H) F]. exists e. apply packet_without. split; [exact H|exact F].
Qed.
(** What is written does not depend on it. *)
Theorem C70_dnssec_write : forall (c : cfg) (h : hasher) (p : packet),
  packet_to_bytes (without_dnssec c) p = packet_to_bytes (with_dnssec c) p /\
  packet_to_bytes_compressed (without_dnssec c) h p = packet_to_bytes_compressed (with_dnssec c) h p /\
  packet_byte_size (without_dnssec c) p = packet_byte_size (with_dnssec c) p.
Proof. intros c h p. repeat split; apply agr_never; [apply ag_pbytes|apply ag_pcomp|apply ag_psize]; try reflexivity; intros; apply agr_refl. Qed.
(** Feature mdns: without it the same messages are accepted, rejected with the same errors, or stop the parser, and the packets
    are the same except for the two flags. *)
Theorem C70_mdns_parse : forall (c : cfg) (d : bytes), packet_try_from (without_mdns c) d = on_ok plain_packet (packet_try_from (with_mdns c) d).
Proof. exact wm_packet. Qed.
(** What is written is the same for packets without the flags. *)
Theorem C70_mdns_write : forall (c : cfg) (h : hasher) (p : packet),
  packet_to_bytes (without_mdns c) p = packet_to_bytes (with_mdns c) (plain_packet p) /\
  packet_to_bytes_compressed (without_mdns c) h p = packet_to_bytes_compressed (with_mdns c) h (plain_packet p) /\
  packet_byte_size (without_mdns c) p = packet_byte_size (with_mdns c) (plain_packet p).
Proof. intros c h p. split; [apply wm_pbytes|]. split; [apply wm_pcomp|apply wm_psize]. Qed.
(** Signing and verifying do not depend on the features. *)
Theorem C70_signatures : forall (c c' : cfg) (x : prims) (bs : bsearch) (k : dnskey) (seed key : bytes) (s : rrset) (r : rrsig) (inc ex : time), ovf c = ovf c' ->
  rrsig_from_dnskey c x bs seed k s inc ex key = rrsig_from_dnskey c' x bs seed k s inc ex key /\ rrsig_verify c x bs r k s = rrsig_verify c' x bs r k s.
Proof.
  intros c c' x bs k seed key s r inc ex O. assert (A : forall m a b, agr never (uadd c m a b) (uadd c' m a b)) by (intros; left; unfold uadd; rewrite O; reflexivity).
  assert (S : forall m a b, agr never (usub c m a b) (usub c' m a b)) by (intros; left; unfold usub; rewrite O; reflexivity).
  assert (M : forall m a b, agr never (umul c m a b) (umul c' m a b)) by (intros; left; unfold umul; rewrite O; reflexivity).
  split; apply agr_never; [apply ag_sign|apply ag_verify]; assumption.
Qed.
(** Both features make a difference: a question for DS, and a question with the unicast bit. *)
Example C70_ex : let ds := [0;0; 0;0; 0;1; 0;0; 0;0; 0;0; 0; 0;43; 128;1] in
  packet_try_from (without_dnssec ex_cfg) ds = Err (InvalidType 43) /\
  (exists p, packet_try_from (with_dnssec ex_cfg) ds = Ok p /\ types_in p = [DS] /\ map q_unicast (p_questions p) = [true] /\ plain_packet p <> p) /\
  packet_try_from (without_dnssec ex_cfg) ex_message = Ok ex_packet.
Proof.
  cbn zeta. split; [vm_compute; reflexivity|]. split; [|vm_compute; reflexivity].
  eexists. split; [vm_compute; reflexivity|]. split; [reflexivity|]. split; [reflexivity|]. discriminate.
Qed.
Print Assumptions C70_dnssec_parse.
Print Assumptions C70_dnssec_accepts.
Print Assumptions C70_dnssec_write.
Print Assumptions C70_mdns_parse.
Print Assumptions C70_mdns_write.
Print Assumptions C70_signatures.
