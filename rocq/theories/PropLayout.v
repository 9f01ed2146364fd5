(** * Properties C51, C56: the octets written are the ones the RFCs define *)
From Coq Require Import Lia ZifyNat ZifyN.
From Verif Require Import Base Buffer Fqdn Header Types RDataBasic Bitmap Svcb RDataSec RData Packet BaseFacts FqdnFacts HeaderSpec CodeSpec RDataSpec RDataFacts
  RecordSpec PacketFacts PacketProps FieldSpec LayoutSpec LayoutFacts LayoutUnique PropName PropRecord PropPacket.

Lemma message_read c p bs suf : packet_plain_ok c p -> small_sections p -> counts_of p = true_counts p ->
  Forall question_layout_ok (p_questions p) ->
  Forall (fun r => rdata_typed c (rr_data r) /\ size_exact (rr_data r) /\ record_layout_ok c r) (records_of p) ->
  fields_octets (message_fields c p) bs -> packet_try_from c (bs ++ suf) = Ok p.
Proof.
  intros P S K Q R F. apply (message_exact c p bs (proj1 P) S Q R) in F. destruct (packet_roundtrip c p P S) as (b & E & G).
  assert (b = bs) as -> by congruence. rewrite G. exact (f_equal Ok (recount_same p K)).
Qed.
Lemma record_octets_length c r bs : fields_octets (record_fields c r) bs -> exists n a d, name_octets (rr_name r) n /\ bs = n ++ a ++ d /\ length a = 10%nat /\
  fields_octets (rfc_fields (rr_data r)) d /\ value_of (skipn 8 a) = N.of_nat (length d).
Proof.
  unfold record_fields. intros H. apply fs_cons_inv in H. destruct H as (a1 & r1 & -> & F1 & H). apply fs_cons_inv in H. destruct H as (a2 & r2 & -> & F2 & H).
  apply fs_cons_inv in H. destruct H as (a3 & r3 & -> & F3 & H). apply fs_cons_inv in H. destruct H as (a4 & r4 & -> & F4 & H).
  apply fs_cons_inv in H. destruct H as (a5 & r5 & -> & F5 & H). apply fs_nil_inv in H. subst. rewrite app_nil_r.
  apply prefixed_inv in F5. destruct F5 as (l & d & -> & D & L & B & V). apply registered_inv in F2, F3. apply number_inv in F4. inversion F1; subst.
  destruct F2 as (L2 & _), F3 as (L3 & _), F4 as (L4 & _). exists a1, (a2 ++ a3 ++ a4 ++ l), d. split; [assumption|]. split; [rewrite <- !app_assoc; reflexivity|].
  split; [rewrite !app_length; lia|]. split; [assumption|]. rewrite !skipn_app. rewrite (skipn_all2 a2), (skipn_all2 a3), (skipn_all2 a4) by (rewrite ?app_length; lia).
  replace (8 - length a2 - length a3 - length a4)%nat with 0%nat by lia. exact V.
Qed.
(** The RDLENGTH written is five less than the length. *)
Lemma message_refuted : forall c : cfg, exists (p : packet) (bs : bytes),
  packet_ok c p /\ small_sections p /\ Forall (fun r => layout_ok (rr_data r)) (records_of p) /\
  packet_to_bytes c p = Ok bs /\ ~ fields_octets (message_fields c p) bs.
Proof.
  intros c. exists caa_packet. eexists. split; [apply caa_packet_ok|]. split; [repeat split; discriminate|]. split; [repeat constructor; cbn; lia|].
  split; [destruct c as [[|] [|] o]; reflexivity|]. intros H. unfold message_fields in H.
  cbn [caa_packet p_questions p_answers p_authorities p_additionals flat_map] in H. rewrite !app_nil_r in H. cbn [app] in H.
  unfold header_fields in H. cbn [app] in H.
  apply fs_cons_inv in H; destruct H as (a1 & r1 & E1 & F1 & H). apply fs_cons_inv in H; destruct H as (a2 & r2 & -> & F2 & H).
  apply fs_cons_inv in H; destruct H as (a3 & r3 & -> & F3 & H). apply fs_cons_inv in H; destruct H as (a4 & r4 & -> & F4 & H).
  apply fs_cons_inv in H; destruct H as (a5 & r5 & -> & F5 & H). apply fs_cons_inv in H; destruct H as (a6 & r6 & -> & F6 & H).
  apply fs_cons_inv in H; destruct H as (a7 & r7 & -> & F7 & H).
  apply number_inv in F1, F2, F3, F4, F5, F6, F7. apply record_octets_length in H. destruct H as (n & x & d & Hn & -> & Lx & D & V). cbn in Hn. inversion Hn; subst n.
  assert (E : exists P, length P = 13%nat /\ a1 ++ a2 ++ a3 ++ a4 ++ a5 ++ a6 ++ a7 ++ [0] ++ x ++ d = P ++ x ++ d).
  { exists (a1 ++ a2 ++ a3 ++ a4 ++ a5 ++ a6 ++ a7 ++ [0]). split; [rewrite !app_length; cbn; lia|rewrite <- !app_assoc; reflexivity]. }
  destruct E as (P & LP & E). rewrite E in E1. clear - E1 LP Lx V.
  assert (X : x = firstn 10 (skipn 13 (P ++ x ++ d))).
  { rewrite skipn_app, (skipn_all2 P) by lia. replace (13 - length P)%nat with 0%nat by lia. change ([] ++ skipn 0 (x ++ d)) with (x ++ d). rewrite firstn_app, (firstn_all2 x) by lia.
    replace (10 - length x)%nat with 0%nat by lia. symmetry. apply app_nil_r. }
  assert (Y : d = skipn 10 (skipn 13 (P ++ x ++ d))).
  { rewrite (skipn_app 13), (skipn_all2 P) by lia. replace (13 - length P)%nat with 0%nat by lia. change ([] ++ skipn 0 (x ++ d)) with (x ++ d). rewrite skipn_app, (skipn_all2 x) by lia.
    replace (10 - length x)%nat with 0%nat by lia. reflexivity. }
  rewrite <- E1 in X, Y. destruct c as [[|] [|] o]; vm_compute in X; vm_compute in Y; subst x d; vm_compute in V; discriminate V.
Qed.
(** ** C51: false for IPSECKEY without gateway, and for APL addresses that end in a zero octet *)

(** An octet 46 is written where RFC 4025, 2.5 has none (46 is the presentation format, 3.1). *)
Theorem C51_gateway_refuted : forall c : cfg, exists (x : ipseckey) (bs : bytes), ip_gw x = GwNone /\ ip_alg x = AlgReserved /\
  rdata_typed c (DIPSECKEY x) /\ rdata_to_bytes c (DIPSECKEY x) = Ok bs /\ ~ fields_octets (rfc_fields (DIPSECKEY x)) bs.
Proof. exact gateway_refuted. Qed.
(** 10.0.0.0/8 is written with all of its octets; RFC 3123, 4 requires that trailing zero octets are left out. *)
Theorem C51_apl_refuted : forall c : cfg, exists (x : apl) (bs : bytes), x = mkApl 8 false (AfdV4 167772160) /\
  rdata_typed c (DAPL x) /\ rdata_to_bytes c (DAPL x) = Ok bs /\ ~ fields_octets (rfc_fields (DAPL x)) bs.
Proof. exact apl_refuted. Qed.
(** For all other values: the record data is the sequence of fields of its RFC, and no other octets are. *)
Theorem C51_layout_partial : forall (c : cfg) (d : rdata), rdata_typed c d -> layout_ok d ->
  exists bs, rdata_to_bytes c d = Ok bs /\ fields_octets (rfc_fields d) bs /\ forall bs', fields_octets (rfc_fields d) bs' -> bs' = bs.
Proof.
  intros c d T L. destruct (layout_ok_bytes c d T L) as (bs & E & F). exists bs. split; [exact E|]. split; [exact F|].
  intros bs' G. apply (layout_exact c d bs' T L) in G. congruence.
Qed.
Example C51_ex : rdata_typed ex_cfg ex_soa /\ layout_ok ex_soa /\ rdata_typed ex_cfg ex_nsec /\ layout_ok ex_nsec.
Proof.
  split; [repeat split; reflexivity|]. split; [repeat constructor; cbn; lia|].
  split; [apply (proj1 (Forall_forall _ _) C23_ex); cbn; tauto|]. split; [repeat constructor; cbn; lia|]. exists A, 1. split; [left; reflexivity|split; [left; reflexivity|reflexivity]].
Qed.
Print Assumptions C51_gateway_refuted.
Print Assumptions C51_apl_refuted.
Print Assumptions C51_layout_partial.
(** ** C51: the octets written where they are not the ones of the RFC *)

(** The algorithm numbers the crate uses for SSHFP, IPSECKEY and HIP alike, and its digest numbers. *)
Definition crate_algs : list (alg * N) := [(AlgReserved, 0); (AlgRSA, 1); (AlgDSA, 2); (AlgECDSA, 3); (AlgEd25519, 4); (AlgEd448, 5)].
Definition crate_digests : list (digest_type * N) := [(DtSHA1, 1); (DtSHA256, 2); (DtSHA384, 4); (DtSHA512, 5)].
(** Addresses of APL in full; an octet 46 in place of an absent gateway. *)
Definition crate_fields (d : rdata) : option (list field) :=
  match d with
  | DAPL x => Some [Number 2 (afd_fam (apl_afd x)); Number 1 (apl_prefix x); Number 1 (flag (apl_n x) 128 + N.of_nat (afd_width (apl_afd x)));
                    Number (afd_width (apl_afd x)) (afd_number (apl_afd x))]
  | DDS x | DCDS x => Some [Number 2 (ds_tag x); Registered 1 (number_in iana_salg (ds_alg x)); Registered 1 (number_in crate_digests (ds_dt x));
                            Octets (ds_digest x)]
  | DSSHFP x => Some [Registered 1 (number_in crate_algs (ssh_alg x)); Registered 1 (number_in iana_fptype (ssh_type x)); Octets (ssh_fp x)]
  | DIPSECKEY x => Some ([Number 1 (ip_prec x); Number 1 (gateway_number (ip_gw x)); Registered 1 (number_in crate_algs (ip_alg x))]
                         ++ match ip_gw x with GwNone => [Number 1 46] | g => gateway_fields g end ++ [Octets (ip_pk x)])
  | DHIP x => Some ([Number 1 (N.of_nat (length (hip_hit x))); Registered 1 (number_in crate_algs (hip_alg x));
                     Number 2 (N.of_nat (length (hip_pk x))); Octets (hip_hit x); Octets (hip_pk x)]
                    ++ match hip_rv x with Some l => map DomainName l | None => [] end)
  | _ => None
  end.
(** Names and lengths that fit their fields. *)
Definition crate_fit (d : rdata) : Prop :=
  match d with
  | DIPSECKEY x => match ip_gw x with GwDomain f => legal_name f | _ => True end
  | DHIP x => (length (hip_hit x) <= 255)%nat /\ N.of_nat (length (hip_pk x)) < 65536 /\ match hip_rv x with Some l => Forall legal_name l | None => True end
  | _ => True
  end.
Theorem C51_instead : forall (c : cfg) (d : rdata) (fs : list field), rdata_typed c d -> crate_fit d -> crate_fields d = Some fs ->
  exists bs, rdata_to_bytes c d = Ok bs /\ fields_octets fs bs.
Proof.
  intros c d fs [_ T] F [= E]. destruct d; try discriminate E; cbn [rdata_to_bytes crate_fit] in *; (eexists; split; [reflexivity|]); injection E as <-.
  - unfold apl_to_bytes. destruct T as [T1 T2]. apply f_more; [apply f_be; destruct (apl_afd x); cbn; lia|]. lay.
    destruct (apl_afd x) as [a|a]; cbn [afd_number afd_width afd_byte_size afd_to_bytes afd_typed app] in *;
      (apply (f_more _ _ [_]); [destruct (apl_n x); apply f_byte; cbn; lia|]; apply f_one, f_be; unfold U32, U128 in T2; cbn; lia).
  - unfold ds_to_bytes. lay. apply f_more; [apply f_regb; destruct (ds_alg x); try pick; cbn; lia|]. apply f_more; [apply f_regb; destruct (ds_dt x); try pick; cbn; lia|]. lay.
  - unfold sshfp_to_bytes. apply f_more; [apply f_regb; destruct (ssh_alg x); try pick; cbn; lia|].
    apply f_more; [apply f_regb; destruct (ssh_type x); try pick; cbn; lia|lay].
  - unfold ipseckey_to_bytes. destruct T as [T1 T2]. cbn [app]. change (?a :: ?b :: ?c :: ?r) with ([a] ++ [b] ++ [c] ++ r). lay.
    apply f_more; [apply f_byte; destruct (ip_gw x); cbn; lia|]. apply f_more; [apply f_regb; destruct (ip_alg x); try pick; cbn; lia|].
    apply fs_app; [|lay]. destruct (ip_gw x); cbn [gateway_fields gateway_to_bytes gateway_typed] in *; lay.
  - unfold hip_to_bytes. destruct F as (F2&F3&F4). rewrite len8_id, len16_id by lia.
    cbn [app]. change (?a :: ?b :: be 2 ?n ++ ?r) with ([a] ++ [b] ++ be 2 n ++ r). apply f_more; [apply f_byte; lia|].
    apply f_more; [apply f_regb; destruct (hip_alg x); try pick; cbn; lia|]. apply f_more; [apply f_be; cbn; lia|].
    do 2 (apply f_more; [apply f_octets|]). destruct (hip_rv x) as [l|]; [|constructor]. apply fs_map. eapply Forall_impl; [|exact F4]. intros f. apply f_fqdn.
  - unfold ds_to_bytes. lay. apply f_more; [apply f_regb; destruct (ds_alg x); try pick; cbn; lia|]. apply f_more; [apply f_regb; destruct (ds_dt x); try pick; cbn; lia|]. lay.
Qed.
Example C51_instead_ex : forall x bs, x = mkIpsec 10 AlgRSA GwNone [7; 8] -> rdata_typed ex_cfg (DIPSECKEY x) /\ crate_fit (DIPSECKEY x) /\
  rdata_to_bytes ex_cfg (DIPSECKEY x) = Ok [10; 0; 1; 46; 7; 8] /\ (rdata_to_bytes ex_cfg (DAPL (mkApl 8 true (AfdV4 167772160))) = Ok bs -> bs = [0; 1; 8; 132; 10; 0; 0; 0]).
Proof. intros x bs ->. split; [repeat split; reflexivity|]. split; [exact I|]. split; [reflexivity|]. intros E. injection E as <-. reflexivity. Qed.
Print Assumptions C51_instead.

(** ** C56: false for messages that contain OPT, RRSIG, CAA or SVCB records (see C24) *)
Theorem C56_message_refuted : forall c : cfg, exists (p : packet) (bs : bytes),
  packet_ok c p /\ small_sections p /\ Forall (fun r => layout_ok (rr_data r)) (records_of p) /\
  packet_to_bytes c p = Ok bs /\ ~ fields_octets (message_fields c p) bs.
Proof. exact message_refuted. Qed.
Theorem C56_header : forall (h : header) (bs : bytes), header_typed h -> bs = header_to_bytes h <-> fields_octets (header_fields (view h)) bs.
Proof. exact header_exact. Qed.
Theorem C56_question : forall (c : cfg) (q : question) (bs : bytes), question_layout_ok q ->
  bs = question_to_bytes c q <-> fields_octets (question_fields c q) bs.
Proof. exact question_exact. Qed.
Theorem C56_record_partial : forall (c : cfg) (r : rr) (bs : bytes), rdata_typed c (rr_data r) -> size_exact (rr_data r) -> record_layout_ok c r ->
  rr_to_bytes c r = Ok bs <-> fields_octets (record_fields c r) bs.
Proof. exact record_exact. Qed.
Theorem C56_message_partial : forall (c : cfg) (p : packet) (bs : bytes), header_typed (p_header p) -> small_sections p ->
  Forall question_layout_ok (p_questions p) ->
  Forall (fun r => rdata_typed c (rr_data r) /\ size_exact (rr_data r) /\ record_layout_ok c r) (records_of p) ->
  packet_to_bytes c p = Ok bs <-> fields_octets (message_fields c p) bs.
Proof. exact message_exact. Qed.
(** Octets with the layout of a message parse to that message. *)
Theorem C56_read_partial : forall (c : cfg) (p : packet) (bs suf : bytes), packet_plain_ok c p -> small_sections p -> counts_of p = true_counts p ->
  Forall question_layout_ok (p_questions p) ->
  Forall (fun r => rdata_typed c (rr_data r) /\ size_exact (rr_data r) /\ record_layout_ok c r) (records_of p) ->
  fields_octets (message_fields c p) bs -> packet_try_from c (bs ++ suf) = Ok p.
Proof. exact message_read. Qed.
Example C56_ex : header_typed (p_header ex_packet) /\ small_sections ex_packet /\ Forall question_layout_ok (p_questions ex_packet) /\
  Forall (fun r => rdata_typed ex_cfg (rr_data r) /\ size_exact (rr_data r) /\ record_layout_ok ex_cfg r) (records_of ex_packet) /\
  packet_plain_ok ex_cfg ex_packet /\ counts_of ex_packet = true_counts ex_packet.
Proof.
  split; [repeat split; reflexivity|]. split; [repeat split; discriminate|]. split; [repeat constructor; cbn; lia|].
  split; [|split; [exact ex_packet_plain|reflexivity]].
  repeat (apply Forall_cons); try apply Forall_nil; (split; [|split; [exact I|]]).
  all: try (repeat split; try reflexivity; fail).
  all: split; [repeat constructor; cbn; lia|]; split; [reflexivity || exact I|]; split; [reflexivity|]; split; [repeat constructor; cbn; lia|].
  all: intros bs E; vm_compute in E; injection E as <-; reflexivity.
Qed.
Print Assumptions C56_message_refuted.
Print Assumptions C56_header.
Print Assumptions C56_question.
Print Assumptions C56_record_partial.
Print Assumptions C56_message_partial.
Print Assumptions C56_read_partial.
