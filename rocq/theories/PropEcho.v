(** * Property C101: a reply repeats the question *)
From Verif Require Import Base Buffer Fqdn Header Types RDataBasic Bitmap Svcb RDataSec RData Packet BaseFacts NameSpec CompressSpec ChunkFacts CodeSpec HeaderSpec RecordSpec
  WireSpec WireFacts PropName PropRecord PropPacket EchoSpec EchoFacts.
From Coq Require Import Lia ZifyNat ZifyN.

(** ** C101 *)
(** Every reply with the questions of the query, whatever else is in it, has in plain form the octets of the query's question section. *)
Theorem C101_plain_partial : forall (c : cfg) (d : bytes) (p r : packet) (out : bytes) (e : nat),
  byte_list d -> packet_try_from c d = Ok p -> consecutive (spelled_question c d) 12 (p_questions p) e ->
  p_questions r = p_questions p -> packet_to_bytes c r = Ok out -> between 12 e out = between 12 e d.
Proof. exact plain_echo. Qed.
(** In compressed form this holds for the first question. *)
Theorem C101_compressed_partial : forall (c : cfg) (h : hasher) (d : bytes) (p r : packet) (out : bytes) (q : question) (e : nat),
  byte_list d -> packet_try_from c d = Ok p -> head (p_questions p) = Some q -> spelled_question c d 12 q e ->
  head (p_questions r) = Some q -> hash_separates h [q_name q] -> packet_to_bytes_compressed c h r = Ok out -> between 12 e out = between 12 e d.
Proof. exact compressed_echo. Qed.
(** And the ID is repeated. *)
Theorem C101_id : forall (c : cfg) (h : hasher) (d : bytes) (p r : packet), byte_list d -> packet_try_from c d = Ok p -> id (p_header r) = id (p_header p) ->
  (forall out, packet_to_bytes c r = Ok out -> between 0 2 out = between 0 2 d) /\ (forall out, packet_to_bytes_compressed c h r = Ok out -> between 0 2 out = between 0 2 d).
Proof.
  intros c h d p r B E I. destruct (id_octets c d p B E) as (a & b & X & Y). rewrite <- I in X.
  split; intros out W; [apply plain_id in W|apply compressed_id in W]; congruence.
Qed.
(** The first record of a reply to one question, if it has the name of the question, begins with a pointer to offset 12. *)
Theorem C101_owner : forall (c : cfg) (h : hasher) (r : packet) (out : bytes) (q : question) (a : rr),
  p_questions r = [q] -> hash_separates h [q_name q] -> Forall (fun l : bytes => (1 <= length l)%nat) (q_name q) -> q_name q <> [] ->
  head (records_of r) = Some a -> rr_name a = q_name q -> packet_to_bytes_compressed c h r = Ok out ->
  let n := (12 + length (question_to_bytes c q))%nat in between n (n + 2) out = [192; 12].
Proof.
  intros c h r out q a Q HS F NE HA AN E n. destruct (answer_pointer c h r out q a Q HS F NE HA AN E) as [x ->]. unfold between. replace (n + 2 - n)%nat with (length [192; 12 : N]) by (cbn [length]; lia).
  subst n. change 12%nat with (length (header_to_bytes (p_header r))). rewrite <- app_length. rewrite app_assoc. apply slice_exact.
Qed.
(** A build without mdns drops bit 15 of the class, which asks for a unicast answer. *)
Theorem C101_bit15_refuted : exists (c : cfg) (d : bytes) (p r : packet) (out : bytes),
  byte_list d /\ packet_try_from c d = Ok p /\ p_questions r = p_questions p /\ packet_to_bytes c r = Ok out /\
  between 16 20 d = [0; 1; 128; 1] /\ between 16 20 out = [0; 1; 0; 1].
Proof.
  pose (d := [0; 7; 0; 0; 0; 1; 0; 0; 0; 0; 0; 0; 2; 97; 98; 0; 0; 1; 128; 1] : bytes).
  exists (mkcfg false true true), d, (mkPacket (mkheader 7 (hflags (header_new_query 0 false)) 1 0 0 0) [mkQ [[97; 98]] (QT A) QIN false] [] [] []),
    (mkPacket (header_new_reply 7 StandardQuery) [mkQ [[97; 98]] (QT A) QIN false] [] [] []). eexists.
  split; [repeat constructor|]. repeat split; vm_compute; reflexivity.
Qed.
(** A question whose name is a pointer (here into the header) is repeated without it. *)
Theorem C101_pointer_refuted : exists (c : cfg) (d : bytes) (p r : packet) (out : bytes),
  byte_list d /\ packet_try_from c d = Ok p /\ p_questions r = p_questions p /\ packet_to_bytes c r = Ok out /\
  between 12 18 d = [192; 0; 0; 1; 0; 1] /\ skipn 12 out = [0; 0; 1; 0; 1].
Proof.
  pose (d := [0; 7; 0; 0; 0; 1; 0; 0; 0; 0; 0; 0; 192; 0; 0; 1; 0; 1] : bytes).
  exists (mkcfg true true true), d, (mkPacket (mkheader 7 (hflags (header_new_query 0 false)) 1 0 0 0) [mkQ [] (QT A) QIN false] [] [] []),
    (mkPacket (header_new_reply 7 StandardQuery) [mkQ [] (QT A) QIN false] [] [] []). eexists.
  split; [repeat constructor|]. repeat split; vm_compute; reflexivity.
Qed.
(** A query for wWw.eXaMPle.com with the letters' case chosen at random, and a reply made with the API. *)
Definition ex_query : bytes :=
  [154; 7; 1; 0; 0; 1; 0; 0; 0; 0; 0; 0; 3; 119; 87; 119; 7; 101; 88; 97; 77; 80; 108; 101; 3; 99; 111; 109; 0; 0; 28; 128; 1].
Definition ex_mixed : fqdn := [[119; 87; 119]; [101; 88; 97; 77; 80; 108; 101]; [99; 111; 109]].
Definition ex_reply : res packet :=
  let! p := packet_try_from ex_cfg ex_query in
  let! r := fold_left (fun r q => let! r := r in add_question ex_cfg r q) (p_questions p) (Ok (packet_new_reply (id (p_header p)))) in
  add_answer ex_cfg r (mkRR ex_mixed AAAA false CIN 60 (DAAAA 1)).
Example C101_ex : exists p r q out,
  byte_list ex_query /\ packet_try_from ex_cfg ex_query = Ok p /\ ex_reply = Ok r /\ p_questions p = [q] /\ p_questions r = [q] /\ id (p_header r) = id (p_header p) /\
  spelled_question ex_cfg ex_query 12 q 33 /\ hash_separates ex_hash [q_name q] /\ q_name q = ex_mixed /\ Forall (fun l : bytes => (1 <= length l)%nat) ex_mixed /\
  packet_to_bytes_compressed ex_cfg ex_hash r = Ok out /\ length out = 61%nat.
Proof.
  do 4 eexists. split; [repeat constructor|]. split; [vm_compute; reflexivity|]. split; [vm_compute; reflexivity|]. split; [reflexivity|]. split; [reflexivity|]. split; [reflexivity|].
  split; [|split; [apply separates_b_true; vm_compute; reflexivity|split; [reflexivity|split; [repeat constructor|split; [vm_compute; reflexivity|reflexivity]]]]].
  exists 29%nat, 32769. split; [|split; [|split; [left; reflexivity|reflexivity]]].
  - cbn [q_name]. repeat (eapply spelled_label; [eexists; split; [reflexivity|split; [split; discriminate|split; [apply Nat.leb_le; reflexivity|reflexivity]]]|]). apply (spelled_root ex_query 28). reflexivity.
  - exists 128, 1. repeat split.
Qed.
Print Assumptions C101_plain_partial.
Print Assumptions C101_compressed_partial.
Print Assumptions C101_id.
Print Assumptions C101_owner.
Print Assumptions C101_bit15_refuted.
Print Assumptions C101_pointer_refuted.
