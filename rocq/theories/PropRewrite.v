(** * The data of a record changed in place (C102). *)
From Coq Require Import Lia ZifyBool ZifyNat ZifyN.
From Verif Require Import Base Buffer Fqdn Header Types RDataBasic RData Packet BaseFacts RecordSpec PatchSpec PatchFacts RewriteSpec RewriteFacts PropName PropRecord PropPacket PropPatch.

(** Every record of an accepted message has its data at [n] octets of the message, after the two that
    say [n]; if no name is read through them, then whatever octets are written there, the message parses
    to the packet with the data these octets stand for in that record and everything else as before,
    or it is refused because they do not stand for data of that type. *)
Theorem C102_data_partial : forall (c : cfg) (d : bytes) (p : packet) (s : section) (i : nat) (r : rr),
  byte_list d -> packet_try_from c d = Ok p -> nth_error (records s p) i = Some r ->
  exists a n, (2 <= a)%nat /\ (a + n <= length d)%nat /\ slice d (a - 2) 2 = be 2 (N.of_nat n) /\ data_at c (rr_type r) d a n = Ok (rr_data r) /\
    ((forall q, (a <= q < a + n)%nat -> ~ pointed_at d q) ->
     forall x, length x = n -> packet_try_from c (patch d a x) = outcome (data_at c (rr_type r) (patch d a x) a n) (fun new => with_data s i new p)).
Proof. exact data_patched. Qed.
(** Addresses: another one can always be put in place of the one in the message. *)
Theorem C102_address4_partial : forall (c : cfg) (d : bytes) (p : packet) (s : section) (i : nat) (r : rr),
  byte_list d -> packet_try_from c d = Ok p -> nth_error (records s p) i = Some r -> rr_type r = A ->
  exists a n old, slice d (a - 2) 2 = be 2 (N.of_nat n) /\ rr_data r = DA old /\ slice d a 4 = be 4 old /\
    ((forall q, (a <= q < a + n)%nat -> ~ pointed_at d q) ->
     forall new, new < 256 ^ 4 -> packet_try_from c (patch d a (be 4 new)) = Ok (with_data s i (DA new) p)).
Proof. intros c d p s i r B E N T. apply (number_patched c d p s i r 4 DA B E N). rewrite T. reflexivity. Qed.
Theorem C102_address6_partial : forall (c : cfg) (d : bytes) (p : packet) (s : section) (i : nat) (r : rr),
  byte_list d -> packet_try_from c d = Ok p -> nth_error (records s p) i = Some r -> rr_type r = AAAA ->
  exists a n old, slice d (a - 2) 2 = be 2 (N.of_nat n) /\ rr_data r = DAAAA old /\ slice d a 16 = be 16 old /\
    ((forall q, (a <= q < a + n)%nat -> ~ pointed_at d q) ->
     forall new, new < 256 ^ 16 -> packet_try_from c (patch d a (be 16 new)) = Ok (with_data s i (DAAAA new) p)).
Proof. intros c d p s i r B E N T. apply (number_patched c d p s i r 16 DAAAA B E N). rewrite T. reflexivity. Qed.
(** Written messages: the one with other data of the same size in one record differs in those octets only.
    In compressed messages the names in the data take part in the compression of the rest, so there both
    must be without.  [h]: the hash function of the dictionary of names. *)
Theorem C102_written : forall (c : cfg) (h : hasher) (p : packet) (out : bytes) (s : section) (i : nat) (r : rr) (bs : bytes),
  nth_error (records s p) i = Some r -> rdata_to_bytes c (rr_data r) = Ok bs ->
  (packet_to_bytes c p = Ok out ->
     exists a, slice out a (length bs) = bs /\ forall new bs', rdata_to_bytes c new = Ok bs' -> length bs' = length bs -> rdata_byte_size c new = rdata_byte_size c (rr_data r) ->
       packet_to_bytes c (with_data s i new p) = Ok (patch out a bs')) /\
  (packet_to_bytes_compressed c h p = Ok out -> rdata_names (rr_data r) = [] ->
     exists a, slice out a (length bs) = bs /\ forall new bs', rdata_to_bytes c new = Ok bs' -> length bs' = length bs -> rdata_byte_size c new = rdata_byte_size c (rr_data r) -> rdata_names new = [] ->
       packet_to_bytes_compressed c h (with_data s i new p) = Ok (patch out a bs')).
Proof.
  intros c h p out s i r bs N Eb. split.
  - intros E. destruct (packet_rewritten c p s i r out bs E N Eb) as (a & S & H). exists a. split; [exact S|]. intros new bs' F1 F2 F3. apply H. split; auto.
  - intros E U. destruct (packet_compressed_rewritten c h p s i r out bs E N Eb U) as (a & S & H). exists a. split; [exact S|]. intros new bs' F1 F2 F3. apply H. split; auto.
Qed.
Theorem C102_written_addresses : forall (c : cfg) (h : hasher) (p : packet) (out : bytes) (s : section) (i : nat) (r : rr) (old : N),
  nth_error (records s p) i = Some r -> rr_data r = DA old ->
  (packet_to_bytes c p = Ok out -> exists a, slice out a 4 = be 4 old /\ forall new, packet_to_bytes c (with_data s i (DA new) p) = Ok (patch out a (be 4 new))) /\
  (packet_to_bytes_compressed c h p = Ok out -> exists a, slice out a 4 = be 4 old /\ forall new, packet_to_bytes_compressed c h (with_data s i (DA new) p) = Ok (patch out a (be 4 new))).
Proof.
  intros c h p out s i r old N D. destruct (C102_written c h p out s i r (be 4 old) N ltac:(rewrite D; reflexivity)) as [W1 W2]. rewrite D, be_length in *. split.
  - intros E. destruct (W1 E) as (a & S & H). exists a. split; [exact S|]. intros new. apply H; [reflexivity|apply be_length|reflexivity].
  - intros E. destruct (W2 E eq_refl) as (a & S & H). exists a. split; [exact S|]. intros new. apply H; [reflexivity|apply be_length|reflexivity|reflexivity].
Qed.

(** A name elsewhere can be read through the address: then the change shows there as well. *)
Theorem C102_data_refuted : exists (c : cfg) (d : bytes) (a : nat) (new : N) (p p' : packet) (r : rr), byte_list d /\ new < 256 ^ 4 /\ packet_try_from c d = Ok p /\
  nth_error (p_answers p) 0 = Some r /\ (exists old, rr_data r = DA old /\ slice d a 4 = be 4 old) /\
  packet_try_from c (patch d a (be 4 new)) = Ok p' /\ map rr_name (p_answers p') <> map rr_name (p_answers p).
Proof.
  exists ex_cfg, ([0; 1; 128; 0; 0; 0; 0; 2; 0; 0; 0; 0] ++ [0; 0; 1; 0; 1; 0; 0; 0; 9; 0; 4; 1; 97; 0; 1] ++ [192; 23; 0; 1; 0; 1; 0; 0; 0; 9; 0; 4; 10; 0; 0; 1]), 23%nat, 23199744.
  do 3 eexists. split; [repeat constructor|]. split; [vm_compute; reflexivity|]. split; [vm_compute; reflexivity|]. split; [vm_compute; reflexivity|]. split; [eexists; split; vm_compute; reflexivity|]. split; [vm_compute; reflexivity|]. vm_compute; discriminate.
Qed.

Lemma response_data_clear q : (33 <= q < 37)%nat -> ~ pointed_at ex_response q.
Proof.
  intros Q (i & n & m & E & L & M & K).
  do 37 (destruct i as [|i]; [cbn in E, M; first [discriminate M | injection E as <-; injection M as <-; first [exfalso; lia |
    apply response_looks in K; [lia|left; reflexivity] | apply response_far in K; [|vm_compute; lia]; unfold target in K; lia]]|]).
  cbn in E. destruct i; discriminate E.
Qed.
(** The address of a reply replaced, in the message and in the packet. *)
Example C102_ex : exists p r, packet_try_from ex_cfg ex_response = Ok p /\ nth_error (records Answers p) 0 = Some r /\ rr_type r = A /\ rr_data r = DA 1572395042 /\
  slice ex_response 33 4 = be 4 1572395042 /\ (forall q, (33 <= q < 37)%nat -> ~ pointed_at ex_response q) /\
  packet_try_from ex_cfg (patch ex_response 33 (be 4 167772161)) = Ok (with_data Answers 0 (DA 167772161) p) /\
  packet_to_bytes_compressed ex_cfg ex_hash p = Ok ex_response /\
  packet_to_bytes_compressed ex_cfg ex_hash (with_data Answers 0 (DA 167772161) p) = Ok (patch ex_response 33 (be 4 167772161)).
Proof.
  do 2 eexists. split; [vm_compute; reflexivity|]. split; [vm_compute; reflexivity|]. split; [reflexivity|]. split; [reflexivity|]. split; [vm_compute; reflexivity|].
  split; [exact response_data_clear|]. split; [vm_compute; reflexivity|]. split; vm_compute; reflexivity.
Qed.
Print Assumptions C102_data_partial.
Print Assumptions C102_address4_partial.
Print Assumptions C102_address6_partial.
Print Assumptions C102_written.
Print Assumptions C102_written_addresses.
Print Assumptions C102_data_refuted.
