(** * Signed sets sent and checked (C104). *)
From Coq Require Import Lia ZifyBool ZifyNat ZifyN Permutation.
From Verif Require Import Base Buffer Fqdn Header Types RDataBasic RDataSec RData Packet Dnssec Construct BaseFacts FqdnFacts RDataSpec CompressSpec ChunkFacts RecordSpec HeaderSpec DnssecSpec DnssecFacts PacketFacts DeliverSpec DeliverFacts PropName PropRecord PropPacket PropDnssec.

(** The set is signed with a key of a supported algorithm; the records, in any order and among any others, the
    signature and the key are sent in a compressed message; the receiver finds the signature and the key in it,
    collects the set, and verification succeeds. *)
Theorem C104_delivered_partial : forall (c : cfg) (x : prims) (bs bs' : bsearch) (h : hasher) seed (k : dnskey) (s : rrset) (inc exp : time) key (r : rrsig)
    (p : packet) (out : bytes) (l : list rdata) (sig_record key_record : rr),
  search_contract bs -> search_contract bs' -> Forall (rdata_typed c) (set_records s) -> Forall (rdata_writable c) (set_records s) ->
  byte_list (dk_pk k) -> key_pair x key (dk_pk k) (dk_alg k) -> rrsig_from_dnskey c x bs seed k s inc exp key = Ok r ->
  gathered s (p_answers p) l -> Permutation (set_records s) l ->
  In sig_record (p_answers p) -> rr_data sig_record = DRRSIG r -> In key_record (records_of p) -> rr_data key_record = DDNSKEY k ->
  packet_ok c p -> counts_of p = true_counts p -> hash_separates h (packet_names p) -> packet_to_bytes_compressed c h p = Ok out -> N.of_nat (length out) <= 16384 ->
  exists p' sig_record' key_record' l', packet_try_from c out = Ok p' /\
    In sig_record' (p_answers p') /\ rr_data sig_record' = DRRSIG r /\ In key_record' (records_of p') /\ rr_data key_record' = DDNSKEY k /\
    gathered s (p_answers p') l' /\ rrsig_verify c x bs' r k (rrset_new (set_name s) (set_type s) (set_class s) (set_ttl s) l') = Ok true.
Proof.
  intros c x bs bs' h seed k s inc exp key r p out l sr kr C C' T W B K E G P S1 S2 K1 K2 O Cn HS Eo L.
  pose proof (packet_compressed c h p out O Cn HS Eo L []) as R. rewrite app_nil_r in R. exists p, sr, kr, l. split; [exact R|]. do 4 (split; [assumption|]). split; [exact G|].
  destruct (from_dnskey_ok c x bs seed k s inc exp key r C T W E) as (ds & _ & _ & _ & D & _).
  pose proof (signed_verifies c x bs bs' seed k s inc exp key r C C' T W B K E) as V.
  apply (verify_iff c x bs' r k s ds C' B D) in V. apply (verify_iff c x bs' r k (with_records s l) ds C' B (canonical_perm c s l ds P D)). exact V.
Qed.

(** In a message of the plain form a signature that comes last arrives without its last octet: RRSIG data announces one
    octet too few. *)
Theorem C104_plain_refuted : forall (c : cfg) (p : packet) (rs : list rr) (sig_record : rr) (r : rrsig) (signature : bytes) (o : N),
  header_typed (p_header p) -> Forall (question_ok c) (p_questions p) -> small_sections p ->
  p_answers p = rs ++ [sig_record] -> p_authorities p = [] -> p_additionals p = [] -> Forall (rr_plain_ok c) rs ->
  rr_ok c sig_record -> rr_data sig_record = DRRSIG r -> rs_sig r = signature ++ [o] -> N.of_nat (length (rrsig_to_bytes r)) <= 65535 ->
  exists bs p', packet_to_bytes c p = Ok bs /\ packet_try_from c bs = Ok p' /\ p_questions p' = p_questions p /\
    p_answers p' = rs ++ [carrying sig_record (DRRSIG (with_signature r signature))].
Proof. exact signature_short. Qed.

Definition ex_signed : rrsig := Eval vm_compute in
  match rrsig_from_dnskey ex_cfg toy linear_search [] (ex_key ED25519 [1; 2; 3]) ex_set day (2 * day)%Z [] with Ok r => r | _ => mkRrsig A ED25519 0 0 0 0 0 [] [] end.
Definition ex_sig_record : rr := mkRR ex_www RRSIG false CIN 3600 (DRRSIG ex_signed).
Definition ex_signed_answers : list rr := [mkRR ex_www A false CIN 3600 (DA 1); mkRR ex_ftp A false CIN 60 (DA 9); mkRR ex_www A false CIN 3600 (DA 2); mkRR ex_www A false CIN 3600 (DA 3)].
Definition ex_signed_packet : packet := mkPacket (mkheader 7 (hflags (header_new_reply 0 StandardQuery)) 1 5 0 1) [ex_question]
  (ex_signed_answers ++ [ex_sig_record]) [] [mkRR ex_www DNSKEY false CIN 3600 (DDNSKEY (ex_key ED25519 [1; 2; 3]))].
Definition ex_signed_plain : packet := mkPacket (mkheader 7 (hflags (header_new_reply 0 StandardQuery)) 1 5 0 0) [ex_question] (ex_signed_answers ++ [ex_sig_record]) [] [].
Lemma ex_signed_ok : packet_ok ex_cfg ex_signed_packet.
Proof.
  split; [repeat split|]. split; [repeat constructor; apply C22_ex|].
  repeat (apply Forall_cons); try apply Forall_nil; (split; [|split]).
  all: try (repeat split; try discriminate; try reflexivity; unfold fqdn_ok, label_ok; repeat constructor; cbn; lia).
Qed.
Example C104_ex : let k := ex_key ED25519 [1; 2; 3] in
  search_contract linear_search /\ Forall (rdata_typed ex_cfg) (set_records ex_set) /\ Forall (rdata_writable ex_cfg) (set_records ex_set) /\
  byte_list (dk_pk k) /\ key_pair toy [] (dk_pk k) (dk_alg k) /\ rrsig_from_dnskey ex_cfg toy linear_search [] k ex_set day (2 * day)%Z [] = Ok ex_signed /\
  gathered ex_set (p_answers ex_signed_packet) [DA 1; DA 2; DA 3] /\ Permutation (set_records ex_set) [DA 1; DA 2; DA 3] /\
  packet_ok ex_cfg ex_signed_packet /\ counts_of ex_signed_packet = true_counts ex_signed_packet /\ hash_separates ex_hash (packet_names ex_signed_packet) /\
  exists out, packet_to_bytes_compressed ex_cfg ex_hash ex_signed_packet = Ok out /\ N.of_nat (length out) <= 16384.
Proof.
  intros k. split; [exact linear_search_ok|]. split; [apply ex_set_typed|]. split; [apply ex_set_typed|]. split; [repeat constructor|].
  split; [apply C39_ex|]. split; [vm_compute; reflexivity|].
  split. { apply gathered_in; [repeat split|]. apply gathered_out; [intros (X & _); discriminate X|]. do 2 (apply gathered_in; [repeat split|]). apply gathered_out; [intros (_ & X & _); discriminate X|constructor]. }
  split; [change (Permutation ([DA 3] ++ [DA 1; DA 2]) ([DA 1; DA 2] ++ [DA 3])); apply Permutation_app_comm|].
  split; [exact ex_signed_ok|]. split; [reflexivity|]. split; [apply separates_b_true; vm_compute; reflexivity|].
  eexists. split; [vm_compute; reflexivity|]. vm_compute. discriminate.
Qed.
(** Sent plain, the same set is no longer accepted: the signature has lost an octet. *)
Example C104_ex_plain : header_typed (p_header ex_signed_plain) /\ Forall (question_ok ex_cfg) (p_questions ex_signed_plain) /\ small_sections ex_signed_plain /\
  Forall (rr_plain_ok ex_cfg) ex_signed_answers /\ rr_ok ex_cfg ex_sig_record /\ N.of_nat (length (rrsig_to_bytes ex_signed)) <= 65535 /\
  exists signature o, rs_sig ex_signed = signature ++ [o] /\
    rrsig_verify ex_cfg toy linear_search ex_signed (ex_key ED25519 [1; 2; 3]) ex_set = Ok true /\
    rrsig_verify ex_cfg toy linear_search (with_signature ex_signed signature) (ex_key ED25519 [1; 2; 3]) ex_set = Ok false.
Proof.
  pose proof ex_signed_ok as (_ & _ & R). split; [repeat split|]. split; [repeat constructor; apply C22_ex|]. split; [repeat split; discriminate|].
  split. { repeat apply Forall_cons; try apply Forall_nil; (split; [rewrite Forall_forall in R; apply R; vm_compute; auto 10|split; [exact I|intros bs E; injection E as <-; vm_compute; discriminate]]). }
  split; [rewrite Forall_forall in R; apply R; vm_compute; auto 10|]. split; [vm_compute; discriminate|].
  exists (removelast (rs_sig ex_signed)), (last (rs_sig ex_signed) 0). split; [vm_compute; reflexivity|]. split; vm_compute; reflexivity.
Qed.
Print Assumptions C104_delivered_partial.
Print Assumptions C104_plain_refuted.
