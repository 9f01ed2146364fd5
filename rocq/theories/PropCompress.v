(** * Property C82: compressed messages have the layout of the RFCs *)
From Coq Require Import Lia ZifyNat ZifyN.
From Verif Require Import Base Buffer Fqdn Header Types RDataBasic Bitmap Svcb RDataSec RData Packet BaseFacts NameSpec FqdnFacts HeaderSpec CodeSpec RDataSpec RDataFacts
  RecordSpec CompressSpec ChunkFacts PacketFacts FieldSpec LayoutSpec LayoutFacts ReadSpec InteropSpec InteropFacts CompressLayout PropName PropRecord PropPacket.

(** A question is asked, the header says there is none. *)
Definition uncounted : packet := mkPacket (header_new_query 7 true) [question_new [] (QT A) QIN] [] [] [].
Lemma counts_refuted : forall (c : cfg) (h : hasher), exists (p : packet) (bs : bytes), packet_ok c p /\ Forall question_layout_ok (p_questions p) /\
  packet_to_bytes_compressed c h p = Ok bs /\ forall e, ~ fields_at bs (message_fields c p) 0 e.
Proof.
  intros c h. exists uncounted, [0; 7; 1; 0; 0; 0; 0; 0; 0; 0; 0; 0; 0; 0; 1; 0; 1]. split; [|split; [repeat constructor|split; [destruct c as [[] [] []]; reflexivity|]]].
  - split; [repeat split|]. split; [|constructor]. constructor; [|constructor]. split; [constructor|]. split; [|reflexivity]. destruct c as [[] [] []]; repeat split; discriminate.
  - intros e H. unfold message_fields, header_fields in H. cbn [app] in H.
    do 4 (apply fa_cons in H; destruct H as (? & ? & H)).
    repeat match goal with F : field_at _ (Number _ _) _ _ |- _ => apply fa_number in F; destruct F as ((? & ?) & ->) end.
    match goal with V : _ |- _ => vm_compute in V; discriminate V end.
Qed.
Lemma ex_fields_ok : Forall question_layout_ok (p_questions ex_packet) /\ Forall (record_fields_ok ex_cfg) (records_of ex_packet).
Proof.
  split; [repeat constructor; cbn; lia|].
  repeat (apply Forall_cons); try apply Forall_nil; (split; [repeat split; reflexivity|]);
    (split; [repeat constructor; cbn; lia|]; split; [reflexivity || exact I|]; split; [reflexivity|]; repeat constructor; cbn; lia).
Qed.

(** ** C82: false when the header's counts are not those of the sections, which the compressed writer does not repair (C33) *)
Theorem C82_counts_refuted : forall (c : cfg) (h : hasher), exists (p : packet) (bs : bytes), packet_ok c p /\ Forall question_layout_ok (p_questions p) /\
  packet_to_bytes_compressed c h p = Ok bs /\ forall e, ~ fields_at bs (message_fields c p) 0 e.
Proof. exact counts_refuted. Qed.
(** The names may be compressed as RFC 1035, 4.1.4 describes it; every RDLENGTH is that of the data as it stands in the message. *)
Theorem C82_message_partial : forall (c : cfg) (h : hasher) (p : packet) (bs : bytes), header_typed (p_header p) -> counts_of p = true_counts p ->
  Forall question_layout_ok (p_questions p) -> Forall (record_fields_ok c) (records_of p) -> hash_separates h (packet_names p) ->
  packet_to_bytes_compressed c h p = Ok bs -> N.of_nat (length bs) <= 16384 -> fields_at bs (message_fields c p) 0 (length bs).
Proof. intros c h p bs H C Q R S E B. rewrite <- (written_message c p C). apply (message_compresses c h); assumption. Qed.
(** With any counts: the sections follow the header as it was given. *)
Theorem C82_sections_partial : forall (c : cfg) (h : hasher) (p : packet) (bs : bytes), header_typed (p_header p) ->
  Forall question_layout_ok (p_questions p) -> Forall (record_fields_ok c) (records_of p) -> hash_separates h (packet_names p) ->
  packet_to_bytes_compressed c h p = Ok bs -> N.of_nat (length bs) <= 16384 ->
  fields_at bs (header_fields (view (p_header p)) ++ flat_map (question_fields c) (p_questions p) ++ flat_map (record_fields c) (p_answers p)
                ++ flat_map (record_fields c) (p_authorities p) ++ flat_map (record_fields c) (p_additionals p)) 0 (length bs).
Proof. exact message_compresses. Qed.
Example C82_ex : header_typed (p_header ex_packet) /\ counts_of ex_packet = true_counts ex_packet /\ Forall question_layout_ok (p_questions ex_packet) /\
  Forall (record_fields_ok ex_cfg) (records_of ex_packet) /\ hash_separates ex_hash (packet_names ex_packet) /\
  exists bs, packet_to_bytes_compressed ex_cfg ex_hash ex_packet = Ok bs /\ length bs = 105%nat.
Proof.
  split; [repeat split; reflexivity|]. split; [reflexivity|]. split; [apply ex_fields_ok|]. split; [apply ex_fields_ok|]. split; [exact ex_packet_separates|].
  eexists. split; [reflexivity|]. vm_compute. reflexivity.
Qed.
(** The records whose RDLENGTH the plain writer gets wrong (C24, C56) are right here. *)
Example C82_ex_caa : Forall (record_fields_ok ex_cfg) (records_of caa_packet) /\
  exists bs, packet_to_bytes_compressed ex_cfg ex_hash caa_packet = Ok bs /\ fields_at bs (message_fields ex_cfg caa_packet) 0 (length bs).
Proof.
  assert (R : Forall (record_fields_ok ex_cfg) (records_of caa_packet)).
  { constructor; [|constructor]. split; [repeat split; reflexivity|]. split; [constructor|]. split; [exact I|]. split; [reflexivity|]. cbn. lia. }
  split; [exact R|]. eexists. split; [reflexivity|].
  eapply (C82_message_partial ex_cfg ex_hash caa_packet); [repeat split; reflexivity|reflexivity|constructor|exact R|apply separates_b_true; reflexivity|reflexivity|vm_compute; discriminate].
Qed.
Print Assumptions C82_counts_refuted.
Print Assumptions C82_message_partial.
Print Assumptions C82_sections_partial.
