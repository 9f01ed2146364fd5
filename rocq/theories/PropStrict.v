(** * C78: what breaks the message format is rejected, and which liberties parsing tolerates *)
From Coq Require Import Sorting.Sorted Lia ZifyBool ZifyNat ZifyN.
From Verif Require Import Base Utf8 Buffer Fqdn Header Types RDataBasic Bitmap Svcb RDataSec RData Packet BaseFacts Utf8Facts NameSpec CodeSpec RDataSpec HeaderSpec WireSpec FailSpec FieldSpec FieldFacts LayoutSpec LayoutFacts LayoutUnique ReadSpec ReadFacts
  BufferFacts FqdnLoop FqdnFacts ParseFacts SvcbParse NameProps WireFacts RecordSpec ApiSpec InteropSpec InteropFacts InteropProps StrictSpec StrictFacts StrictConv PropRecord PropPacket.

(** The message [d] is parsed as [p], though it is not laid out as RFC 1035 and the RFC of the record's type say. *)
Definition tolerated (c : cfg) (d : bytes) (p : packet) : Prop :=
  byte_list d /\ packet_try_from c d = Ok p /\ ~ exists e, fields_at d (message_fields c p) 0 e.

(** ** Taking literal messages apart *)
Lemma root_name d m : nth_error d 12 = Some 0 -> field_at d (DomainName []) 12 m -> m = 13%nat.
Proof.
  intros Z H. inversion H as [? ? ? R| |? ? ? K]; subst; [|destruct K]. inversion R as [|? ? ? ? (n & E & L & _)|? t ? ? (a & b & E & L & _)]; subst; [reflexivity|].
  rewrite Z in E. injection E as <-. lia.
Qed.
Lemma in_answer c t n x bs e : fields_at (answer_octets n bs) (message_fields c (answer t x)) 0 e -> byte_list (answer_octets n bs) ->
  exists m, fields_at (answer_octets n bs) (rfc_fields x) 23 m /\ num (answer_octets n bs) 2 (N.of_nat (m - 23)) 21%nat 23%nat.
Proof.
  intros H B. unfold message_fields in H. cbn [flat_map answer p_questions p_answers p_authorities p_additionals app] in H. unfold header_fields, record_fields in H. cbn [app] in H.
  do 7 (next H; apply fa_number in F; destruct F as (_ & ->)). cbn [Nat.add] in H. cbn [rr_name rr_data] in H. next H. apply root_name in F; [|reflexivity]. subst m.
  next H. apply fa_reg in F. destruct F as (? & _ & _ & ->). next H. apply fa_reg in F. destruct F as (? & _ & _ & ->). next H. apply fa_number in F. destruct F as (_ & ->).
  next H. cbn [Nat.add] in F. apply fa_prefixed in F. destruct F as (N & F). exists m. auto.
Qed.
Ltac tolerate := split; [vm_compute; repeat constructor|]; split; [match goal with c : cfg |- _ => destruct c as [[|] [|] o]; try discriminate; vm_compute; reflexivity end|];
  intros (e & H); apply in_answer in H; [|vm_compute; repeat constructor]; destruct H as (m & H & N); destruct N as (N & _);
  destruct N as (_ & N); match type of N with N.of_nat ?k = ?x => let v := eval vm_compute in x in change x with v in N end.

(** Octets left over in the data (RFC 1035, 3.4.1: an address has four). *)
Theorem C78_left_over_refuted : forall c : cfg, tolerated c (answer_octets 1 [10; 0; 0; 1; 7; 7; 7]) (answer A (DA 167772161)).
Proof. intros c. tolerate. cbn [rfc_fields] in H. fields H. apply fa_number in F. destruct F as (_ & ->). discriminate N. Qed.
(** Labels of more than 63 octets (RFC 1035, 3.1). *)
Theorem C78_label_refuted : forall c : cfg, tolerated c (answer_octets 2 (64 :: repeat 97 64 ++ [0])) (answer NS (DNS [repeat 97 64])).
Proof.
  intros c. tolerate. cbn [rfc_fields] in H. fields H. inversion F as [? ? ? R| |? ? ? K]; subst; [|destruct K]. inversion R as [|? ? ? ? (k & E & L & _)|? t ? ? (a & b & E & L & _)]; subst; vm_compute in E; injection E as <-; lia.
Qed.
(** A pointer that does not lead to a prior occurrence (RFC 1035, 4.1.4): the one at 24 leads to 26. *)
Theorem C78_pointer_refuted : forall c : cfg, tolerated c (answer_octets 2 [3; 192; 26; 0; 192; 24]) (answer NS (DNS [[192; 26; 0]])).
Proof.
  intros c. tolerate. cbn [rfc_fields] in H. fields H. inversion F as [? ? ? R| |? ? ? K]; subst; [|destruct K].
  inversion R as [|? ? ? ? _ R'|? t ? ? (a & b & E & L & _)]; subst; [|vm_compute in E; injection E as <-; lia]. cbn [Nat.add length] in R'. clear R.
  inversion R' as [? Z|? ? ? ? (k & E & L & _)|? t ? q' (a & b & Ea & La & Eb & Lb & Et) R2 Lq]; subst; [vm_compute in Z; discriminate|].
  vm_compute in Ea, Eb. injection Ea as <-. injection Eb as <-. vm_compute in R2.
  inversion R2 as [? Z|? ? ? ? (k & E & L & _)|? t ? q2 (a & b & Ea & La' & Eb & Lb' & Et) R3 Lq3]; subst; [vm_compute in Z; discriminate|].
  vm_compute in Ea, Eb. injection Ea as <-. injection Eb as <-. vm_compute in Lq3. lia.
Qed.
(** NAPTR flags that are not flags (RFC 3403, 4.1: letters and digits defined by the application). *)
Theorem C78_naptr_flag_refuted : forall c : cfg, tolerated c (answer_octets 35 [0; 1; 0; 2; 1; 63; 0; 0; 0]) (answer NAPTR (DNAPTR (mkNaptr 1 2 [] [] [] []))).
Proof.
  intros c. tolerate. cbn [rfc_fields na_flags na_order na_pref na_service na_regexp na_repl map] in H. next H. apply fa_number in F. destruct F as (_ & ->). next H. apply fa_number in F. destruct F as (_ & ->).
  next H. apply fa_prefixed in F. destruct F as ((N1 & _) & F). apply fa_nil in F. subst. destruct N1 as (_ & N1). vm_compute in N1. discriminate.
Qed.
(** The same EDNS option twice: the last one counts.  (RFC 6891, 6.1.2 leaves this to the option.) *)
Theorem C78_option_refuted : forall c : cfg, tolerated c (answer_octets 41 [0; 10; 0; 1; 7; 0; 10; 0; 1; 8]) (answer OPT (DOPT [(10, [8])])).
Proof.
  intros c. tolerate. cbn [rfc_fields flat_map fst snd app] in H. next H. apply fa_number in F. destruct F as (_ & ->). next H. apply fa_prefixed in F. destruct F as (_ & F). apply fa_nil in H. subst m0. fields F.
  apply fa_octets in F0. destruct F0 as (_ & ->). discriminate N.
Qed.
(** SVCB parameters not in increasing order (RFC 9460, 2.2), *)
Theorem C78_param_order_refuted : forall c : cfg, tolerated c (answer_octets 64 [0; 1; 0; 0; 3; 0; 2; 1; 187; 0; 2; 0; 0]) (answer SVCB (DSVCB (mkSvcb 1 [] [PNoDefaultAlpn; PPort 443]))).
Proof.
  intros c. tolerate. cbn [rfc_fields sv_prio sv_target sv_params flat_map app] in H. next H. apply fa_number in F. destruct F as (_ & ->). next H.
  assert (m0 = 26)%nat as ->.
  { inversion F as [? ? ? R| |? ? ? K]; subst; [|destruct K]. inversion R as [|? ? ? ? (k & E & L & _)|? t ? ? (a & b & E & L & _)]; subst; [reflexivity|]. vm_compute in E. injection E as <-. lia. }
  next H. apply fa_reg in F0. destruct F0 as (v & V & ((_ & Ev) & _)). vm_compute in Ev. subst v. discriminate V.
Qed.
(** with the same key twice, *)
Theorem C78_param_twice_refuted : forall c : cfg, tolerated c (answer_octets 64 [0; 1; 0; 0; 3; 0; 2; 1; 187; 0; 3; 0; 2; 0; 80]) (answer SVCB (DSVCB (mkSvcb 1 [] [PPort 443]))).
Proof.
  intros c. tolerate. cbn [rfc_fields sv_prio sv_target sv_params flat_map app] in H. next H. apply fa_number in F. destruct F as (_ & ->). next H.
  assert (m0 = 26)%nat as ->.
  { inversion F as [? ? ? R| |? ? ? K]; subst; [|destruct K]. inversion R as [|? ? ? ? (k & E & L & _)|? t ? ? (a & b & E & L & _)]; subst; [reflexivity|]. vm_compute in E. injection E as <-. lia. }
  next H. apply fa_reg in F0. destruct F0 as (v & _ & (_ & ->)). next H. apply fa_nil in H. subst m0. apply fa_prefixed in F0. destruct F0 as (_ & F0). cbn [param_value] in F0. fields F0.
  match goal with X : field_at _ (Number 2 443) _ _ |- _ => apply fa_number in X; destruct X as (_ & ->) end. discriminate N.
Qed.
(** or with a length that is not the parameter's: the next one is expected behind the two octets of the port. *)
Theorem C78_param_length_refuted : forall c : cfg, tolerated c (answer_octets 64 [0; 1; 0; 0; 3; 0; 9; 1; 187]) (answer SVCB (DSVCB (mkSvcb 1 [] [PPort 443]))).
Proof.
  intros c. tolerate. cbn [rfc_fields sv_prio sv_target sv_params flat_map app] in H. next H. apply fa_number in F. destruct F as (_ & ->). next H.
  assert (m0 = 26)%nat as ->.
  { inversion F as [? ? ? R| |? ? ? K]; subst; [|destruct K]. inversion R as [|? ? ? ? (k & E & L & _)|? t ? ? (a & b & E & L & _)]; subst; [reflexivity|]. vm_compute in E. injection E as <-. lia. }
  next H. apply fa_reg in F0. destruct F0 as (v & _ & (_ & ->)). next H. apply fa_nil in H. subst m0. apply fa_prefixed in F0. destruct F0 as (((_ & N1) & _) & F0). cbn [param_value] in F0. fields F0.
  match goal with X : field_at _ (Number 2 443) _ _ |- _ => apply fa_number in X; destruct X as (_ & ->) end. vm_compute in N1. discriminate N1.
Qed.
(** Type bitmaps with trailing zero octets (RFC 4034, 4.1.2), *)
Theorem C78_bitmap_zeros_refuted : forall c : cfg, dnssec c = true -> tolerated c (answer_octets 62 [0; 0; 0; 1; 0; 0; 0; 2; 64; 0]) (answer CSYNC (DCSYNC (mkCsync 1 0 [A]))).
Proof.
  intros c D. tolerate. cbn [rfc_fields cs_serial cs_flags cs_types] in H. next H. apply fa_number in F. destruct F as (_ & ->). next H. apply fa_number in F. destruct F as (_ & ->). fields H.
  apply fa_other in F; [|exact I]. destruct F as (bs & F & (_ & O) & Em). apply bitmaps_inv in F. destruct F as (ws & -> & (_ & W) & M & _).
  assert (L : length (flat_map window_octets ws) = 4%nat) by lia. rewrite L in O. vm_compute in O. clear - O W M.
  destruct ws as [|[n [|a [|b [|x bm]]]] ws]; try discriminate; cbn in O; injection O; intros; subst; try discriminate. inversion M as [|? ? M1 ?]. cbn in M1. congruence.
Qed.
(** with the windows in another order, *)
Theorem C78_bitmap_order_refuted : forall c : cfg, dnssec c = true -> tolerated c (answer_octets 62 [0; 0; 0; 1; 0; 0; 1; 1; 128; 0; 1; 64]) (answer CSYNC (DCSYNC (mkCsync 1 0 [A; URI]))).
Proof.
  intros c D. tolerate. cbn [rfc_fields cs_serial cs_flags cs_types] in H. next H. apply fa_number in F. destruct F as (_ & ->). next H. apply fa_number in F. destruct F as (_ & ->). fields H.
  apply fa_other in F; [|exact I]. destruct F as (bs & F & (_ & O) & Em). apply bitmaps_inv in F. destruct F as (ws & -> & (S & W) & _).
  assert (L : length (flat_map window_octets ws) = 6%nat) by lia. rewrite L in O. clear L Em. match type of O with ?l = _ => let v := eval vm_compute in l in change l with v in O end.
  destruct ws as [|[n [|a [|b bm]]] [|[n' bm'] ws]]; unfold window_octets in O; cbn [flat_map fst snd app length] in O; try discriminate; injection O; intros; subst; try (exfalso; lia).
  cbn [map fst] in S. inversion S as [|? ? _ S1]. inversion S1. lia.
Qed.
(** or with an empty window. *)
Theorem C78_bitmap_empty_refuted : forall c : cfg, dnssec c = true -> tolerated c (answer_octets 62 [0; 0; 0; 1; 0; 0; 0; 0]) (answer CSYNC (DCSYNC (mkCsync 1 0 []))).
Proof.
  intros c D. tolerate. cbn [rfc_fields cs_serial cs_flags cs_types] in H. next H. apply fa_number in F. destruct F as (_ & ->). next H. apply fa_number in F. destruct F as (_ & ->). fields H.
  apply fa_other in F; [|exact I]. destruct F as (bs & F & (_ & O) & Em). apply bitmaps_inv in F. destruct F as (ws & -> & (_ & W) & _).
  assert (L : length (flat_map window_octets ws) = 2%nat) by lia. rewrite L in O. vm_compute in O. clear - O W.
  destruct ws as [|[n [|a bm]] ws]; try discriminate; cbn in O. inversion W as [|? ? W1 ?]. cbn in W1. lia.
Qed.
(** An APL address with trailing zero octets (RFC 3123, 4). *)
Theorem C78_apl_zeros_refuted : forall c : cfg, tolerated c (answer_octets 42 [0; 1; 8; 4; 10; 0; 0; 0]) (answer APL (DAPL (mkApl 8 false (AfdV4 167772160)))).
Proof.
  intros c. tolerate. cbn [rfc_fields apl_afd apl_prefix apl_n afd_fam afd_width afd_number] in H. next H. apply fa_number in F. destruct F as (_ & ->). next H. apply fa_number in F. destruct F as (_ & ->). fields H.
  apply fa_other in F; [|exact I]. destruct F as (bs & F & (_ & O) & Em). apply address_inv in F. destruct F as (s & -> & A). assert (L : length s = 4%nat) by (cbn [length] in Em; lia).
  cbn [length] in O. rewrite L in O. match type of O with ?l = _ => let v := eval vm_compute in l in change l with v in O end. injection O as Os. inversion A as [? k _ _ _ La]; subst. apply La. reflexivity.
Qed.
(** Reserved flags of CAA and DNSKEY are dropped (RFC 8659, 4.1 and RFC 4034, 2.1.1 ask to ignore them). *)
Theorem C78_caa_flags_refuted : forall c : cfg, tolerated c (answer_octets 257 [1; 1; 97; 98]) (answer CAA (DCAA (mkCaa false [97] [98]))).
Proof. intros c. tolerate. cbn [rfc_fields caa_critical] in H. next H. apply fa_number in F. destruct F as ((_ & F) & _). vm_compute in F. discriminate. Qed.
Theorem C78_dnskey_flags_refuted : forall c : cfg, dnssec c = true -> tolerated c (answer_octets 48 [0; 2; 3; 8; 1; 2]) (answer DNSKEY (DDNSKEY (mkDnskey false false 3 RSA_SHA256 [1; 2]))).
Proof. intros c D. tolerate. cbn [rfc_fields dk_zone dk_sep] in H. next H. apply fa_number in F. destruct F as ((_ & F) & _). vm_compute in F. discriminate. Qed.
(** Without mDNS the top bit of a class is dropped: here the class is 32769, not IN. *)
Theorem C78_class_refuted : forall c : cfg, mdns c = false ->
  tolerated c ([0; 1; 128; 0; 0; 1; 0; 0; 0; 0; 0; 0] ++ [0; 0; 1; 128; 1]) (mkPacket (mkheader 1 (hflags (header_new_reply 0 StandardQuery)) 1 0 0 0) [mkQ [] (QT A) QIN false] [] [] []).
Proof.
  intros c M. split; [repeat constructor|]. split; [destruct c as [[|] [|] o]; try discriminate; vm_compute; reflexivity|].
  intros (e & H). unfold message_fields in H. cbn [flat_map p_questions p_answers p_authorities p_additionals app] in H. unfold header_fields, question_fields in H. cbn [app] in H.
  do 7 (next H; apply fa_number in F; destruct F as (_ & ->)). cbn [Nat.add q_name q_type q_class q_unicast] in H. next H. apply root_name in F; [|reflexivity]. subst m.
  next H. apply fa_reg in F. destruct F as (? & _ & _ & ->). fields H. apply fa_reg in F. destruct F as (v & (k & K & Ev) & (_ & V) & _). vm_compute in V. rewrite V, M in Ev. cbn [andb flag] in Ev.
  cbn in K. one_of K. injection K as <-. discriminate Ev.
Qed.

(** Rules about whole messages that the layout does not show: at most one OPT record (RFC 6891, 6.1.1), *)
Theorem C78_two_opt_refuted : forall c : cfg, exists d p, byte_list d /\ packet_try_from c d = Ok p /\ length (filter (fun r => rtype_code (rr_type r) =? 41) (p_additionals p)) = 2%nat.
Proof.
  intros c. exists ([0; 1; 0; 0; 0; 0; 0; 0; 0; 0; 0; 2] ++ [0; 0; 41; 4; 0; 0; 0; 0; 0; 0; 0] ++ [0; 0; 41; 8; 0; 0; 0; 0; 0; 0; 0]). eexists. split; [repeat constructor|].
  split; [destruct c as [[|] [|] o]; vm_compute; reflexivity|reflexivity].
Qed.
(** at least one string in a TXT record (RFC 1035, 3.3.14), protocol 3 in a DNSKEY record (RFC 4034, 2.1.2). *)
Theorem C78_no_text_refuted : forall c : cfg, packet_try_from c (answer_octets 16 []) = Ok (answer TXT (DTXT [])).
Proof. intros c. destruct c as [[|] [|] o]; vm_compute; reflexivity. Qed.
Theorem C78_protocol_refuted : forall c : cfg, dnssec c = true -> packet_try_from c (answer_octets 48 [1; 0; 4; 8; 1; 2]) = Ok (answer DNSKEY (DDNSKEY (mkDnskey true false 4 RSA_SHA256 [1; 2]))).
Proof. intros c D. destruct c as [[|] [|] o]; try discriminate; vm_compute; reflexivity. Qed.
(** LOC of a version other than 0, which RFC 1876 has readers refuse, and a size whose digits are above 9. *)
Theorem C78_loc_refuted : forall (c : cfg) (v : N), v < 256 ->
  packet_try_from c (answer_octets 29 ([v; 255; 0; 0] ++ repeat 0 12)) = Ok (answer LOC (DLOC (mkLoc v 255 0 0 0 0 0))).
Proof.
  intros c v V. destruct (C28_plain_roundtrip_partial c (answer LOC (DLOC (mkLoc v 255 0 0 0 0 0)))) as (bs & E & R).
  - split; [repeat split|]. split; [constructor|]. apply Forall_cons; [|apply Forall_nil]. split; [split; [repeat split; discriminate || reflexivity || (destruct c as [[|] [|] ?]; reflexivity) || apply Forall_nil|split; [|exact I]]|split; [exact I|]].
    + split; [destruct c as [[|] [|] ?]; reflexivity|]. cbn. unfold U8, U32. lia.
    + intros bs E. injection E as <-. vm_compute. discriminate.
  - repeat split; discriminate.
  - specialize (R []). rewrite app_nil_r in R. 
    replace (answer_octets 29 ([v; 255; 0; 0] ++ repeat 0 12)) with bs; [exact R|]. enough (Ok bs = Ok (answer_octets 29 ([v; 255; 0; 0] ++ repeat 0 12))) as Y by (injection Y as ->; reflexivity). rewrite <- E. destruct c as [[|] [|] [|]]; reflexivity.
Qed.

(** There are no other liberties: a message that is parsed is laid out as the RFCs say if, and only if, it takes none of those of [StrictSpec]. *)
Theorem C78_message_partial : forall (c : cfg) (d : bytes) (p : packet), byte_list d -> allocatable d -> packet_try_from c d = Ok p ->
  (exists e, fields_at d (message_fields c p) 0 e) <-> packet_strict c d p.
Proof. intros c d p B A H. split; [intros (e & F); eapply conv_packet; eassumption|intros S; eapply strict_packet; eassumption]. Qed.
(** The same for one record of the message and for its data. *)
Theorem C78_record_partial : forall (c : cfg) (d : bytes) (p : nat) (r : rr) (e : nat), byte_list d -> allocatable d -> rdata_typed c (rr_data r) -> record_on_wire c d p r e ->
  fields_at d (record_fields c r) p e <-> record_strict c d p r e.
Proof. intros c d p r e B A T W. split; [intros F; eapply conv_record; eassumption|apply strict_record, B]. Qed.
Theorem C78_data_partial : forall (c : cfg) (w : bytes) (q : nat) (x : rdata) (m : nat), byte_list w -> allocatable w -> (q <= length w)%nat -> rdata_typed c x -> laid (pieces w c x) q m ->
  fields_at w (rfc_fields x) q (length w) <-> data_strict c w q x.
Proof. intros c w q x m B A L T H. split; [apply conv_data with (m := m); assumption|apply strict_data with (m := m); assumption]. Qed.
(** So of a message that is tolerated (in the sense above) some octet takes one of the liberties. *)
Theorem C78_tolerated_partial : forall (c : cfg) (d : bytes) (p : packet), allocatable d -> tolerated c d p <-> byte_list d /\ packet_try_from c d = Ok p /\ ~ packet_strict c d p.
Proof.
  intros c d p A. unfold tolerated. split; intros (B & H & N); (split; [exact B|]; split; [exact H|]); intros X; apply N, (C78_message_partial c d p B A H), X.
Qed.

(** Non-trivial: an NS record whose name ends with a pointer. *)
Lemma name_once d p f e f' e' : byte_list d -> name_at d 191 p f e -> rfc_name_at d p f' e' -> f = f' /\ e = e'.
Proof.
  intros B N R. apply rfc_accepted in R. apply (extract_fqdn_iff d p _ _ B) in N. rewrite N in R. injection R as -> ->. auto.
Qed.
Example C78_ex : byte_list (answer_octets 2 [1; 97; 192; 12]) /\ packet_try_from ex_cfg (answer_octets 2 [1; 97; 192; 12]) = Ok (answer NS (DNS [[97]])) /\
  packet_strict ex_cfg (answer_octets 2 [1; 97; 192; 12]) (answer NS (DNS [[97]])).
Proof.
  assert (B : byte_list (answer_octets 2 [1; 97; 192; 12])) by (vm_compute; repeat constructor).
  assert (P : packet_try_from ex_cfg (answer_octets 2 [1; 97; 192; 12]) = Ok (answer NS (DNS [[97]]))) by (vm_compute; reflexivity).
  assert (R : rfc_name_at (answer_octets 2 [1; 97; 192; 12]) 12 [] 13) by (change 13%nat with (12 + 1)%nat; apply strict_root; reflexivity).
  assert (R2 : rfc_name_at (answer_octets 2 [1; 97; 192; 12]) 23 [[97]] 27).
  { match goal with |- rfc_name_at ?d _ _ _ => let d' := eval vm_compute in d in change d with d' end. unfold rfc_name_at. change 27%nat with (25 + 2)%nat. place_name. }
  split; [exact B|]. split; [exact P|].
  apply packet_iff in P; [|exact B]. destruct P as (e & P). apply packet_wire in P; [|exact B|vm_compute; discriminate]. destruct P as (_ & _ & _ & _ & _ & e1 & e2 & e3 & C1 & C2 & C3 & C4).
  exists e1, e2, e3, e. cbn [answer p_questions p_answers p_authorities p_additionals] in *. inversion C1; subst. inversion C3; subst. inversion C4; subst.
  split; [constructor|]. split; [|split; constructor]. inversion C2 as [|? ? m ? ? W L C5]; subst. inversion C5; subst. apply (one_more _ _ _ e); [|exact L|constructor].
  split; [exact W|]. intros k v N V. cbn [rr_name rr_data] in *. destruct (name_once _ _ _ _ _ _ B N R) as (_ & ->). split; [exact R|]. split; [discriminate|].
  destruct W as (k & v' & len & N' & _ & _ & _ & _ & _ & _ & _ & _ & Ln & Ee & _). cbn [rr_name] in N'. destruct (name_once _ _ _ _ _ _ B N' R) as (_ & ->).
  destruct Ln as (a & b & Ea & _ & Eb & _ & ->). vm_compute in Ea, Eb. injection Ea as <-. injection Eb as <-. vm_compute in Ee. subst e.
  change (firstn 27 (answer_octets 2 [1; 97; 192; 12])) with (answer_octets 2 [1; 97; 192; 12]). change (13 + 10)%nat with 23%nat. split; [|split; [|exact I]].
  - intros m H. cbn [pieces laid] in H. destruct H as (m' & H & ->). destruct (name_once _ _ _ _ _ _ B H R2) as (_ & ->). reflexivity.
  - intros p f e Pl H. cbn [rdata_type] in Pl. inversion Pl as [|? ? f0 ? I|? ? I| | | | |]; subst; try (cbn in I; repeat destruct I as [I|I]; try discriminate; destruct I).
    destruct (name_once _ _ _ _ _ _ B H R2) as (-> & ->). exact R2.
Qed.
Print Assumptions C78_left_over_refuted.
Print Assumptions C78_label_refuted.
Print Assumptions C78_pointer_refuted.
Print Assumptions C78_naptr_flag_refuted.
Print Assumptions C78_option_refuted.
Print Assumptions C78_param_order_refuted.
Print Assumptions C78_param_twice_refuted.
Print Assumptions C78_param_length_refuted.
Print Assumptions C78_bitmap_zeros_refuted.
Print Assumptions C78_bitmap_order_refuted.
Print Assumptions C78_bitmap_empty_refuted.
Print Assumptions C78_apl_zeros_refuted.
Print Assumptions C78_caa_flags_refuted.
Print Assumptions C78_dnskey_flags_refuted.
Print Assumptions C78_class_refuted.
Print Assumptions C78_two_opt_refuted.
Print Assumptions C78_no_text_refuted.
Print Assumptions C78_protocol_refuted.
Print Assumptions C78_loc_refuted.
Print Assumptions C78_message_partial.
Print Assumptions C78_record_partial.
Print Assumptions C78_data_partial.
Print Assumptions C78_tolerated_partial.
