(** * Fields of a message changed in place (C95). *)
From Coq Require Import Lia ZifyBool ZifyNat ZifyN.
From Verif Require Import Base Buffer Fqdn Header Types RDataBasic RData Packet BaseFacts HeaderSpec HeaderFacts WireFacts PatchSpec PatchFacts PropName PropRecord PropPacket.

(** Another ID written over the first two octets, which no name is read through: the message parses to the
    packet with that ID, and it is refused, for the same reason, if it was refused before. *)
Theorem C95_id_partial : forall (c : cfg) (d : bytes) (i : N), byte_list d -> (4 <= length d)%nat -> i < 65536 ->
  (forall q, (q < 2)%nat -> ~ pointed_at d q) ->
  packet_try_from c (patch d 0 (be 2 i)) =
  match packet_try_from c d with Ok p => Ok (with_id i p) | Err e => Err e | Panic => Panic | Diverge => Diverge end.
Proof. exact id_patched. Qed.
(** Any octets at all written over ID and flags: the header says what the octets say, the sections stay. *)
Theorem C95_header_partial : forall (c : cfg) (d x : bytes), byte_list d -> byte_list x -> length x = 4%nat -> (4 <= length d)%nat ->
  (forall q, (q < 4)%nat -> ~ pointed_at d q) ->
  match packet_try_from c d with
  | Ok p => exists p', packet_try_from c (patch d 0 x) = Ok p' /\ view (p_header p') = fields_of (patch d 0 x) /\
      p_questions p' = p_questions p /\ p_answers p' = p_answers p /\ p_authorities p' = p_authorities p /\ p_additionals p' = p_additionals p
  | bad => packet_try_from c (patch d 0 x) = bad
  end.
Proof. exact header_patched. Qed.
(** Every record of an accepted message has its TTL at four octets of the message; if no name is read
    through them, then writing another TTL there changes that TTL and nothing else. *)
Theorem C95_ttl_partial : forall (c : cfg) (d : bytes) (p : packet) (s : section) (i : nat) (r : rr),
  byte_list d -> packet_try_from c d = Ok p -> nth_error (records s p) i = Some r ->
  exists a, slice d a 4 = be 4 (rr_ttl r) /\ ((forall q, (a <= q < a + 4)%nat -> ~ pointed_at d q) ->
    forall t, t < 4294967296 -> packet_try_from c (patch d a (be 4 t)) = Ok (with_ttl s i t p)).
Proof. exact ttl_patched. Qed.
(** Written messages: the one with another ID, or another TTL in one record, differs in those octets only.
    [h]: the hash function of the dictionary of names. *)
Theorem C95_written : forall (c : cfg) (h : hasher) (p : packet) (out : bytes),
  (packet_to_bytes c p = Ok out ->
     (slice out 0 2 = be 2 (id (p_header p)) /\ forall i, packet_to_bytes c (with_id i p) = Ok (patch out 0 (be 2 i))) /\
     forall s k r, nth_error (records s p) k = Some r ->
       exists a, slice out a 4 = be 4 (rr_ttl r) /\ forall t, packet_to_bytes c (with_ttl s k t p) = Ok (patch out a (be 4 t))) /\
  (packet_to_bytes_compressed c h p = Ok out ->
     (slice out 0 2 = be 2 (id (p_header p)) /\ forall i, packet_to_bytes_compressed c h (with_id i p) = Ok (patch out 0 (be 2 i))) /\
     forall s k r, nth_error (records s p) k = Some r ->
       exists a, slice out a 4 = be 4 (rr_ttl r) /\ forall t, packet_to_bytes_compressed c h (with_ttl s k t p) = Ok (patch out a (be 4 t))).
Proof.
  intros c h p out. split; intros E; (split; [split|]).
  - apply (packet_id_written c p 0 out E).
  - intros i. apply (packet_id_written c p i out E).
  - intros s k r. apply packet_written. exact E.
  - apply (packet_id_compressed c h p 0 out E).
  - intros i. apply (packet_id_compressed c h p i out E).
  - intros s k r. apply packet_compressed_written. exact E.
Qed.

(** Names can be read through the ID (a pointer to offset 0) or through a TTL: then the change shows elsewhere. *)
Theorem C95_id_refuted : exists (c : cfg) (d : bytes) (i : N) (p p' : packet), byte_list d /\ i < 65536 /\ packet_try_from c d = Ok p /\
  packet_try_from c (patch d 0 (be 2 i)) = Ok p' /\ p_questions p' <> p_questions p.
Proof.
  exists ex_cfg, [1; 97; 0; 0; 0; 1; 0; 0; 0; 0; 0; 0; 192; 0; 0; 1; 0; 1], 354.
  do 2 eexists. split; [repeat constructor|]. split; [vm_compute; reflexivity|]. split; [vm_compute; reflexivity|]. split; [vm_compute; reflexivity|]. vm_compute; discriminate.
Qed.
Theorem C95_ttl_refuted : exists (c : cfg) (d : bytes) (a : nat) (t : N) (p p' : packet) (r : rr), byte_list d /\ t < 4294967296 /\ packet_try_from c d = Ok p /\
  nth_error (p_answers p) 0 = Some r /\ slice d a 4 = be 4 (rr_ttl r) /\
  packet_try_from c (patch d a (be 4 t)) = Ok p' /\ map rr_name (p_answers p') <> map rr_name (p_answers p).
Proof.
  exists ex_cfg, ([0; 1; 128; 0; 0; 0; 0; 2; 0; 0; 0; 0] ++ [0; 0; 1; 0; 1; 1; 97; 0; 0; 0; 4; 10; 0; 0; 1] ++ [192; 17; 0; 1; 0; 1; 0; 0; 0; 9; 0; 4; 10; 0; 0; 1]), 17%nat, 23199744.
  do 3 eexists. split; [repeat constructor|]. split; [vm_compute; reflexivity|]. split; [vm_compute; reflexivity|]. split; [vm_compute; reflexivity|]. split; [vm_compute; reflexivity|]. split; [vm_compute; reflexivity|]. vm_compute; discriminate.
Qed.

(** A response with a compressed name, whose address contains octets that look like a pointer. *)
Definition ex_response : bytes := [0; 7; 129; 128; 0; 1; 0; 1; 0; 0; 0; 0] ++ [3; 119; 119; 119; 0; 0; 1; 0; 1] ++ [192; 12; 0; 1; 0; 1; 0; 0; 1; 44; 0; 4; 93; 184; 216; 34].
Lemma response_looks p q : looks ex_response p q -> p = 12%nat \/ p = 16%nat -> (12 <= q < 17)%nat.
Proof.
  induction 1 as [p|p n i E L I|p n q E L NZ _ IH|p n E L|p n m q E L M _ IH]; intros [-> | ->]; try lia; injection E as <-; try lia.
Qed.
Lemma response_far p q : looks ex_response p q -> (40 <= p)%nat -> q = p.
Proof. intros K P. assert (G : nth_error ex_response p = None) by (apply nth_error_None; unfold ex_response; cbn [app length]; lia). destruct K; congruence. Qed.
Lemma response_clear q : (q < 12 \/ 27 <= q < 31)%nat -> ~ pointed_at ex_response q.
Proof.
  intros Q (i & n & m & E & L & M & K).
  do 37 (destruct i as [|i]; [cbn in E, M; first [discriminate M | injection E as <-; injection M as <-; first [exfalso; lia |
    apply response_looks in K; [lia|left; reflexivity] | apply response_far in K; [|vm_compute; lia]; unfold target in K; lia]]|]).
  cbn in E. destruct i; discriminate E.
Qed.
Example C95_ex : exists p, packet_try_from ex_cfg ex_response = Ok p /\
  packet_try_from ex_cfg (patch ex_response 0 (be 2 999)) = Ok (with_id 999 p) /\
  (exists r, nth_error (p_answers p) 0 = Some r /\ slice ex_response 27 4 = be 4 (rr_ttl r)) /\
  packet_try_from ex_cfg (patch ex_response 27 (be 4 299)) = Ok (with_ttl Answers 0 299 p) /\
  (forall q, (27 <= q < 31)%nat -> ~ pointed_at ex_response q) /\ (forall q, (q < 4)%nat -> ~ pointed_at ex_response q).
Proof.
  eexists. split; [vm_compute; reflexivity|]. split; [vm_compute; reflexivity|]. split; [eexists; split; vm_compute; reflexivity|]. split; [vm_compute; reflexivity|]. split; intros q Q; apply response_clear; lia.
Qed.
Print Assumptions C95_id_partial.
Print Assumptions C95_header_partial.
Print Assumptions C95_ttl_partial.
Print Assumptions C95_written.
Print Assumptions C95_id_refuted.
Print Assumptions C95_ttl_refuted.
