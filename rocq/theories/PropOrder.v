(** * The length of compressed messages (C98). *)
From Coq Require Import Lia ZifyNat ZifyN Permutation.
From Verif Require Import Base Buffer Fqdn Header Types RDataBasic RData Packet BaseFacts CompressSpec ChunkFacts RecordSpec OrderSpec OrderFacts PropName PropRecord PropPacket.

(** The compressed form is shorter than the plain one by what the names take there, and longer by what they take when each
    tail is written once ([shared]).  [h]: the hash function of the dictionary. *)
Theorem C98_length_partial : forall (c : cfg) (h : hasher) (p : packet) (plain out : bytes), hash_separates h (packet_names p) ->
  packet_to_bytes c p = Ok plain -> packet_to_bytes_compressed c h p = Ok out ->
  exists n, shared (packet_names p) n /\
    (length out + total (fun f => length (fqdn_to_bytes f)) (packet_names p) = length plain + n)%nat.
Proof. exact saved_length. Qed.
(** Questions in another order, and records in another order or in other sections: the length stays. *)
Theorem C98_order_partial : forall (c : cfg) (h : hasher) (p p' : packet) (out : bytes), hash_separates h (packet_names p) ->
  Permutation (p_questions p) (p_questions p') -> Permutation (records_of p) (records_of p') ->
  packet_to_bytes_compressed c h p = Ok out ->
  exists out', packet_to_bytes_compressed c h p' = Ok out' /\ length out' = length out.
Proof. exact order_length. Qed.
(** [shared] fixes the number; it is the least with which the names can be written one after the other. *)
Theorem C98_unique : forall fs n k, shared fs n -> shared fs k -> n = k.
Proof. exact shared_unique. Qed.
Theorem C98_least : forall fs n, shared fs n -> ways [] fs n /\ forall k, ways [] fs k -> (n <= k)%nat.
Proof. intros fs n S. split; [exact (ways_shared fs n S)|]. intros k W. exact (ways_least fs k n W S). Qed.
(** False without the condition on the hash: when it maps two names to one number, the one that comes second is lost, and with it its octets. *)
Theorem C98_collision_refuted : exists (h : hasher) (p p' : packet) (out out' : bytes),
  Permutation (p_questions p) (p_questions p') /\ records_of p = records_of p' /\
  packet_to_bytes_compressed ex_cfg h p = Ok out /\ packet_to_bytes_compressed ex_cfg h p' = Ok out' /\ length out <> length out'.
Proof.
  exists (fun _ => 7), (packet_with_questions 1 true [question_new [[97]] (QT A) QIN; question_new [[98; 98; 98]] (QT A) QIN]),
    (packet_with_questions 1 true [question_new [[98; 98; 98]] (QT A) QIN; question_new [[97]] (QT A) QIN]). do 2 eexists.
  split; [apply perm_swap|]. split; [reflexivity|]. split; [vm_compute; reflexivity|]. split; [vm_compute; reflexivity|]. discriminate.
Qed.
(** Seven names, www.example.com four times and ftp.example.com three times: 33 octets instead of 119. *)
Definition ex_turned : packet := mkPacket (p_header ex_packet) (p_questions ex_packet) [] (rev (records_of ex_packet)) [].
Example C98_ex : hash_separates ex_hash (packet_names ex_packet) /\ Permutation (records_of ex_packet) (records_of ex_turned) /\
  (exists plain out, packet_to_bytes ex_cfg ex_packet = Ok plain /\ packet_to_bytes_compressed ex_cfg ex_hash ex_packet = Ok out) /\
  length (packet_names ex_packet) = 7%nat /\ shared (packet_names ex_packet) 33 /\
  total (fun f => length (fqdn_to_bytes f)) (packet_names ex_packet) = 119%nat.
Proof.
  split; [exact ex_packet_separates|]. split; [unfold ex_turned, records_of at 2; cbn [p_answers p_authorities p_additionals app]; rewrite app_nil_r; apply Permutation_rev|].
  split; [do 2 eexists; split; vm_compute; reflexivity|]. split; [reflexivity|]. split; vm_compute; reflexivity.
Qed.
Print Assumptions C98_length_partial.
Print Assumptions C98_order_partial.
Print Assumptions C98_unique.
Print Assumptions C98_least.
Print Assumptions C98_collision_refuted.
