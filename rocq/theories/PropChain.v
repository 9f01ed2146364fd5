(** * Property C114: any number of relays pass on what the first one read *)
From Coq Require Import Lia ZifyBool ZifyNat ZifyN.
From Verif Require Import Base Buffer Fqdn Header Types RDataBasic Svcb RDataSec RData Packet BaseFacts FqdnFacts CompressSpec ChunkFacts HeaderSpec CodeSpec RDataSpec RecordSpec RDataReads PacketFacts PacketProps WireSpec SvcbParse PropName PropRecord PropPacket.

(** A relay parses the message it receives and writes the packet, in either form; each has its own hash function. *)
Inductive relay (c : cfg) (d : bytes) : bytes -> Prop :=
| relay_plain p out : packet_try_from c d = Ok p -> packet_to_bytes c p = Ok out -> relay c d out
| relay_compressed p h out : packet_try_from c d = Ok p -> hash_separates h (packet_names p) -> packet_to_bytes_compressed c h p = Ok out ->
    N.of_nat (length out) <= 16384 -> relay c d out.
Inductive relay_short (c : cfg) (d : bytes) : bytes -> Prop :=
| short_compressed p h out : packet_try_from c d = Ok p -> hash_separates h (packet_names p) -> packet_to_bytes_compressed c h p = Ok out ->
    N.of_nat (length out) <= 16384 -> relay_short c d out.
(** Relays one behind the other. *)
Inductive passed (R : bytes -> bytes -> Prop) : nat -> bytes -> bytes -> Prop :=
| not_yet d : passed R 0 d d
| once_more n d m out : R d m -> passed R n m out -> passed R (S n) d out.

(** Whatever the number of relays and the forms they choose, the last one delivers the packet the first one read, if its records are of the kinds that
    both forms carry (C37); *)
Theorem C114_relays_partial : forall (c : cfg) (n : nat) (d out : bytes) (p : packet), byte_list d -> allocatable d -> packet_try_from c d = Ok p ->
  Forall (fun r => keeps_data (rr_data r) /\ size_exact (rr_data r) /\ forall db, rdata_to_bytes c (rr_data r) = Ok db -> N.of_nat (length db) <= 65535) (records_of p) ->
  passed (relay c) n d out -> packet_try_from c out = Ok p.
Proof.
  intros c n d out p B A E F. destruct (C37_roundtrip_partial c d p B A E) as (P & Q).
  { eapply Forall_impl; [|exact F]. intros r H. apply H. }
  destruct P as (bs & W & R). { eapply Forall_impl; [|exact F]. intros r H. apply H. }
  assert (X : forall n d out, packet_try_from c d = Ok p -> passed (relay c) n d out -> packet_try_from c out = Ok p); [|apply X, E].
  clear n d out B A E. intros n d out E H. revert E. induction H as [d|n d m out S H IH]; intros E; [exact E|]. apply IH.
  destruct S as [p' m E' W'|p' h m E' S W' L]; rewrite E in E'; apply Ok_inj in E'; subst p'.
  - rewrite W in W'. apply Ok_inj in W'. subst m. exact R.
  - destruct (Q h S) as (bs' & W2 & R2). rewrite W' in W2. apply Ok_inj in W2. subst bs'. apply R2, L.
Qed.
(** with compressed messages, any records but SSHFP and text that grew when it was repaired; *)
Theorem C114_short_partial : forall (c : cfg) (n : nat) (d out : bytes) (p : packet), byte_list d -> allocatable d -> packet_try_from c d = Ok p ->
  Forall (fun r => keeps_data (rr_data r)) (records_of p) -> passed (relay_short c) n d out -> packet_try_from c out = Ok p.
Proof.
  intros c n d out p B A E F. destruct (C37_roundtrip_partial c d p B A E F) as (_ & Q).
  assert (X : forall n d out, packet_try_from c d = Ok p -> passed (relay_short c) n d out -> packet_try_from c out = Ok p); [|apply X, E].
  clear n d out B A E. intros n d out E H. revert E. induction H as [d|n d m out S H IH]; intros E; [exact E|]. apply IH.
  destruct S as [p' h m E' S W' L]; rewrite E in E'; apply Ok_inj in E'; subst p'.
  destruct (Q h S) as (bs' & W2 & R2). rewrite W' in W2. apply Ok_inj in W2. subst bs'. apply R2, L.
Qed.
(** no relay is ever stuck; *)
Theorem C114_goes_on : forall (c : cfg) (d : bytes) (p : packet), byte_list d -> allocatable d -> packet_try_from c d = Ok p -> exists out, relay c d out.
Proof. intros c d p B A E. destruct (C37_serialises c d p B A E) as ((bs & W) & _). exists bs. exact (relay_plain c d p bs E W). Qed.
(** and any number of relays that write the plain form write the same octets as one. *)
Definition relay_octets (c : cfg) (d out : bytes) : Prop := exists p, packet_try_from c d = Ok p /\ packet_to_bytes c p = Ok out.
Theorem C114_octets_partial : forall (c : cfg) (n : nat) (d out : bytes) (p : packet), byte_list d -> allocatable d -> packet_try_from c d = Ok p ->
  Forall (fun r => keeps_data (rr_data r) /\ size_exact (rr_data r) /\ forall db, rdata_to_bytes c (rr_data r) = Ok db -> N.of_nat (length db) <= 65535) (records_of p) ->
  passed (relay_octets c) (S n) d out -> relay_octets c d out.
Proof.
  intros c n d out p B A E F H. exists p. split; [exact E|].
  assert (X : forall k y, passed (relay_octets c) k d y -> passed (relay c) k d y).
  { intros k y P. clear - P. induction P as [d|k d m y (q & E & W) P IH]; [constructor|]. econstructor; [exact (relay_plain c d q m E W)|exact IH]. }
  assert (L : exists mid, passed (relay_octets c) n d mid /\ relay_octets c mid out).
  { clear - H. revert d H. induction n as [|n IH]; intros d H; inversion H as [|? ? m ? S P]; subst.
    - inversion P; subst. exists d. split; [constructor|exact S].
    - destruct (IH _ P) as (mid & P' & S'). exists mid. split; [econstructor; eassumption|exact S']. }
  destruct L as (mid & P & (q & Eq & W)). rewrite (C114_relays_partial c n d mid p B A E F (X _ _ P)) in Eq. apply Ok_inj in Eq. subst q. exact W.
Qed.

(** False for SSHFP records: this message is passed on by five relays, each of which takes an octet away, and rejected by the sixth. *)
Definition fingerprint_message (fp : bytes) : bytes := [0; 1; 128; 0; 0; 0; 0; 1; 0; 0; 0; 0; 0; 0; 44; 0; 1; 0; 0; 0; 60] ++ be 2 (N.of_nat (2 + length fp)) ++ [1; 1] ++ fp.
Theorem C114_sshfp_refuted : forall c : cfg,
  passed (relay c) 5 (fingerprint_message [4; 3; 2; 1; 0]) (fingerprint_message []) /\
  (forall fp, In fp [[4; 3; 2; 1; 0]; [3; 2; 1; 0]; [2; 1; 0]; [1; 0]; [0]] -> exists x, relay c (fingerprint_message fp) (fingerprint_message (tl fp)) /\
     packet_try_from c (fingerprint_message fp) = Ok x /\ map rr_data (p_answers x) = [DSSHFP (mkSshfp AlgRSA FpSHA1 (tl fp))]) /\
  forall p, packet_try_from c (fingerprint_message []) <> Ok p.
Proof.
  intros c.
  assert (S : forall fp, In fp [[4; 3; 2; 1; 0]; [3; 2; 1; 0]; [2; 1; 0]; [1; 0]; [0]] -> exists x, relay c (fingerprint_message fp) (fingerprint_message (tl fp)) /\
     packet_try_from c (fingerprint_message fp) = Ok x /\ map rr_data (p_answers x) = [DSSHFP (mkSshfp AlgRSA FpSHA1 (tl fp))]).
  { intros fp I. assert (X : exists x, packet_try_from c (fingerprint_message fp) = Ok x /\ packet_to_bytes c x = Ok (fingerprint_message (tl fp)) /\ map rr_data (p_answers x) = [DSSHFP (mkSshfp AlgRSA FpSHA1 (tl fp))]).
    { repeat (destruct I as [<-|I]; [eexists; split; [destruct c as [[|] [|] [|]]; vm_compute; reflexivity|split; [destruct c as [[|] [|] [|]]; vm_compute; reflexivity|reflexivity]]|]). destruct I. }
    destruct X as (x & P & W & D). exists x. split; [exact (relay_plain c _ x _ P W)|]. auto. }
  split; [|split; [exact S|]].
  - assert (R : forall fp, In fp [[4; 3; 2; 1; 0]; [3; 2; 1; 0]; [2; 1; 0]; [1; 0]; [0]] -> relay c (fingerprint_message fp) (fingerprint_message (tl fp))) by (intros fp I; destruct (S fp I) as (x & H & _); exact H).
    do 5 (eapply once_more; [apply R; cbn; tauto|]). constructor.
  - intros p. destruct c as [[|] [|] [|]]; vm_compute; discriminate.
Qed.
(** Text that grew beyond 255 octets when it was repaired is cut into other strings by the next relay: one string becomes four. *)
Definition text_message : bytes := [0; 1; 128; 0; 0; 0; 0; 1; 0; 0; 0; 0; 0; 0; 16; 0; 1; 0; 0; 0; 60; 0; 255; 254] ++ repeat 97 196 ++ [59] ++ repeat 97 56 ++ [255].
Theorem C114_text_refuted : forall c : cfg, exists p out q, packet_try_from c text_message = Ok p /\ relay c text_message out /\ packet_try_from c out = Ok q /\
  length (concat (map (fun r => match rr_data r with DTXT l => l | _ => [] end) (p_answers p))) = 1%nat /\
  length (concat (map (fun r => match rr_data r with DTXT l => l | _ => [] end) (p_answers q))) = 4%nat.
Proof.
  intros c. assert (X : exists p out q, packet_try_from c text_message = Ok p /\ packet_to_bytes c p = Ok out /\ packet_try_from c out = Ok q /\
    length (concat (map (fun r => match rr_data r with DTXT l => l | _ => [] end) (p_answers p))) = 1%nat /\
    length (concat (map (fun r => match rr_data r with DTXT l => l | _ => [] end) (p_answers q))) = 4%nat).
  { destruct c as [[|] [|] [|]]; do 3 eexists; (split; [vm_compute; reflexivity|split; [vm_compute; reflexivity|split; [vm_compute; reflexivity|split; [reflexivity|reflexivity]]]]). }
  destruct X as (p & out & q & E & W & R & H). exists p, out, q. split; [exact E|]. split; [exact (relay_plain c _ p out E W)|]. auto.
Qed.
(** Non-trivial: a compressed message with three sections, passed on in plain and then in compressed form. *)
Example C114_ex : let d := ex_bytes (packet_to_bytes_compressed ex_cfg ex_hash ex_packet) in
  byte_list d /\ allocatable d /\ packet_try_from ex_cfg d = Ok ex_packet /\
  Forall (fun r => keeps_data (rr_data r) /\ size_exact (rr_data r) /\ forall db, rdata_to_bytes ex_cfg (rr_data r) = Ok db -> N.of_nat (length db) <= 65535) (records_of ex_packet) /\
  passed (relay ex_cfg) 2 d d /\ passed (relay_short ex_cfg) 1 d d /\ exists out, d <> out /\ passed (relay_octets ex_cfg) 2 d out.
Proof.
  cbv zeta. destruct C37_ex as (B & A & E & K & S & H). set (d := ex_bytes (packet_to_bytes_compressed ex_cfg ex_hash ex_packet)) in *.
  assert (W : packet_to_bytes ex_cfg ex_packet = Ok (ex_bytes (packet_to_bytes ex_cfg ex_packet))) by reflexivity.
  assert (R : packet_try_from ex_cfg (ex_bytes (packet_to_bytes ex_cfg ex_packet)) = Ok ex_packet) by (vm_compute; reflexivity).
  assert (Wc : packet_to_bytes_compressed ex_cfg ex_hash ex_packet = Ok d) by (vm_compute; reflexivity). assert (L : N.of_nat (length d) <= 16384) by (vm_compute; discriminate).
  split; [exact B|]. split; [exact A|]. split; [exact E|]. split; [|split; [|split]].
  - rewrite Forall_forall in *. intros r I. split; [apply K, I|apply S, I].
  - eapply once_more; [exact (relay_plain _ _ _ _ E W)|]. eapply once_more; [exact (relay_compressed _ _ _ _ _ R H Wc L)|constructor].
  - eapply once_more; [exact (short_compressed _ _ _ _ _ E H Wc L)|constructor].
  - exists (ex_bytes (packet_to_bytes ex_cfg ex_packet)). split; [intros X; apply (f_equal (@length N)) in X; vm_compute in X; discriminate X|].
    eapply once_more; [exists ex_packet; split; [exact E|exact W]|]. eapply once_more; [exists ex_packet; split; [exact R|exact W]|constructor].
Qed.
Print Assumptions C114_relays_partial.
Print Assumptions C114_short_partial.
Print Assumptions C114_goes_on.
Print Assumptions C114_octets_partial.
Print Assumptions C114_sshfp_refuted.
Print Assumptions C114_text_refuted.
