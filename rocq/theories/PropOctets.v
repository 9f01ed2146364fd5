(** * Property C113: the data of a received record are passed on octet by octet *)
From Coq Require Import Lia ZifyBool ZifyNat ZifyN.
From Verif Require Import Base Utf8 Buffer Fqdn Header Types RDataBasic Bitmap Svcb RDataSec RData Packet Dnssec BaseFacts Utf8Facts BufferFacts NameSpec FqdnLoop FqdnFacts BitmapFacts NameProps
  CodeSpec CodeFacts RDataSpec RDataFacts ParseFacts HeaderSpec HeaderFacts WireSpec WireFacts SvcbParse FailSpec FailFacts RDataReads FieldSpec FieldFacts LayoutSpec LayoutFacts LayoutUnique RepairSpec RepairFacts ReadSpec ReadFacts
  RecordSpec RecordProps PacketFacts InteropSpec InteropFacts InteropPacket StrictSpec StrictFacts DnssecSpec DnssecFacts OctetsSpec OctetsFacts PropRecord.
Ltac Zify.zify_post_hook ::= Z.div_mod_to_equations.

Lemma received_laid c d p r e bs : byte_list d -> allocatable d -> (p <= length d)%nat -> data_received c d p r e bs ->
  exists k m, name_at d 191 p (rr_name r) k /\ (k + 10 <= e <= length d)%nat /\ bs = skipn (k + 10) (firstn e d) /\ rdata_type (rr_data r) = rr_type r /\ (m <= e)%nat /\ N.of_nat (length bs) < 65536 /\
    laid (pieces (firstn e d) c (rr_data r)) (k + 10) m.
Proof.
  intros B A L (P & k & N & Le & ->). apply record_iff in P; [|exact B|exact L]. apply record_wire in P; [|exact B|exact A].
  destruct P as (k' & v & len & N' & _ & _ & T & _ & _ & _ & _ & _ & Ln & Ee & _ & m & Lm & D). destruct (name_at_unique _ _ _ _ _ _ B N N') as (_ & <-).
  exists k, m. split; [exact N|]. split; [exact Le|]. split; [|split; [exact T|split; [exact Lm|split; [|exact D]]]].
  - unfold slice. rewrite skipn_firstn_comm. reflexivity.
  - rewrite slice_length by lia. destruct Ln as (a & b & _ & La & _ & Lb & ->). lia.
Qed.
(** The data of these types are written as they were received; octets behind the last field, which are not looked at (C78), are dropped. *)
Theorem C113_plain_partial : forall (c : cfg) (d : bytes) (p : nat) (r : rr) (e : nat) (bs : bytes), byte_list d -> allocatable d -> (p <= length d)%nat ->
  data_received c d p r e bs -> In (rr_type r) plain_types ->
  exists s left_over, rdata_to_bytes c (rr_data r) = Ok s /\ bs = s ++ left_over.
Proof.
  intros c d p r e bs B A L H I. destruct (received_laid _ _ _ _ _ _ B A L H) as (k & m & N & Le & -> & T & Lm & Ln & D). rewrite <- T in I.
  destruct (plain_same c (firstn e d) (byte_list_firstn _ _ B) (k + 10) ltac:(rewrite firstn_length; lia) _ _ D I) as (s & E & O).
  destruct (oct_prefix _ _ _ _ O) as (x & X). exists s, x. auto.
Qed.
(** Those of these too, if their names are written in full. *)
Theorem C113_names_partial : forall (c : cfg) (d : bytes) (p : nat) (r : rr) (e : nat) (bs : bytes) (k : nat), byte_list d -> allocatable d -> (p <= length d)%nat ->
  data_received c d p r e bs -> In (rr_type r) name_types -> name_at d 191 p (rr_name r) k -> names_in_full (firstn e d) (rr_type r) (k + 10) ->
  exists s left_over, rdata_to_bytes c (rr_data r) = Ok s /\ bs = s ++ left_over.
Proof.
  intros c d p r e bs k B A L H I Nk F. destruct (received_laid _ _ _ _ _ _ B A L H) as (k' & m & N & Le & -> & T & Lm & Ln & D). destruct (name_at_unique _ _ _ _ _ _ B N Nk) as (_ & ->). rewrite <- T in I, F.
  destruct (named_same c (firstn e d) (byte_list_firstn _ _ B) (k + 10) ltac:(rewrite firstn_length; lia) _ _ D I F) as (s & E & O).
  destruct (oct_prefix _ _ _ _ O) as (x & X). exists s, x. auto.
Qed.
(** For every type: data that can be laid out are written as received exactly if they were laid out as the type's RFC says, with names in full. *)
Theorem C113_layout_partial : forall (c : cfg) (d : bytes) (p : nat) (r : rr) (e : nat) (bs : bytes), data_received c d p r e bs ->
  rdata_typed c (rr_data r) -> layout_ok (rr_data r) -> rdata_to_bytes c (rr_data r) = Ok bs <-> fields_octets (rfc_fields (rr_data r)) bs.
Proof. intros c d p r e bs _. apply layout_exact. Qed.

(** Keys come back exactly if no flags but Zone Key and Secure Entry Point were set; only then the key tag computed for the key is that of the octets
    received (RFC 4034, appendix B), and the DS record made for it the one the parent zone has (RFC 4034, 5.1.4). *)
Definition flags_known (bs : bytes) : Prop := In (unbe (firstn 2 bs)) [0; 1; 256; 257].
Lemma key_received c d p r e bs k : byte_list d -> allocatable d -> (p <= length d)%nat -> data_received c d p r e bs -> rr_data r = DDNSKEY k \/ rr_data r = DCDNSKEY k ->
  exists f g s, f < 65536 /\ bs = be 2 f ++ s /\ dnskey_rdata k = be 2 g ++ s /\ (g = f <-> flags_known bs) /\ g <= 257 /\ (f = 65535 -> g = 257) /\
    byte_list s /\ N.of_nat (length s) < 65536 /\ U8 (dk_protocol k) /\ byte_list (dk_pk k) /\ N.of_nat (length (dk_pk k)) <= 131064.
Proof.
  intros B A L H E. destruct (received_laid _ _ _ _ _ _ B A L H) as (kk & m & N & Le & -> & T & Lm & Ln & D).
  assert (D' : laid (pieces (firstn e d) c (DDNSKEY k)) (kk + 10) m) by (destruct E as [E|E]; rewrite E in D; exact D). clear D.
  pose proof (byte_list_firstn e d B) as Bw.
  destruct (key_same c (firstn e d) Bw (kk + 10) ltac:(rewrite firstn_length; lia) _ _ D') as (f & Lf & Ez & Es & U & O).
  assert (Bs : byte_list (skipn (kk + 10) (firstn e d))) by (apply Forall_forall; intros y Iy; apply (proj1 (Forall_forall _ _) Bw); rewrite <- (firstn_skipn (kk + 10)); apply in_or_app; right; exact Iy).
  rewrite O in *. set (s := dk_protocol k :: salg_code (dk_alg k) :: dk_pk k) in *.
  assert (Bt : byte_list s) by (apply Forall_app in Bs; apply Bs).
  exists f, (flag (dk_zone k) 256 + flag (dk_sep k) 1), s. rewrite app_length in Ln. cbn [be app length] in Ln.
  assert (F : unbe (firstn 2 (be 2 f ++ s)) = f) by (cbn [be app firstn]; rewrite <- (unbe_be2 f Lf) at 3; reflexivity).
  split; [exact Lf|]. split; [reflexivity|]. split; [|split; [|split; [|split; [|split; [exact Bt|split; [lia|split; [exact U|split]]]]]]].
  - rewrite <- dnskey_rdata_eq. unfold dnskey_to_bytes, flag. destruct (dk_zone k), (dk_sep k); reflexivity.
  - unfold flags_known. rewrite F, Ez, Es. split; [|intros [<-|[<-|[<-|[<-|[]]]]]; reflexivity]. unfold flag. intros Ef. cbn. destruct (N.testbit f 8), (N.testbit f 0); lia.
  - unfold flag. destruct (dk_zone k), (dk_sep k); lia.
  - intros ->. rewrite Ez, Es. reflexivity.
  - inversion Bt as [|? ? _ Bt']. inversion Bt'. assumption.
  - subst s. cbn [length] in Ln. lia.
Qed.
Lemma be2_inj f g s : f < 65536 -> g <= 257 -> be 2 g ++ s = be 2 f ++ s <-> g = f.
Proof. intros Lf Lg. split; [|intros ->; reflexivity]. intros E. apply app_inv_tail in E. apply be_inj in E; [exact E|cbn; lia|cbn; lia]. Qed.
Theorem C113_key_partial : forall (c : cfg) (d : bytes) (p : nat) (r : rr) (e : nat) (bs : bytes) (k : dnskey), byte_list d -> allocatable d -> (p <= length d)%nat ->
  data_received c d p r e bs -> rr_data r = DDNSKEY k \/ rr_data r = DCDNSKEY k ->
  (rdata_to_bytes c (rr_data r) = Ok bs <-> flags_known bs) /\
  (compute_key_tag c k = Ok (rfc_key_tag bs) <-> flags_known bs) /\
  forall (x : prims) (owner : fqdn) (t : digest_type),
    ds_from_dnskey c x owner k t = Ok (mkDs (rfc_key_tag bs) (dk_alg k) t (hash_data x t (fqdn_to_bytes owner ++ bs))) <-> flags_known bs.
Proof.
  intros c d p r e bs k B A L H E. destruct (key_received _ _ _ _ _ _ _ B A L H E) as (f & g & s & Lf & Eb & Ek & I & Lg & X & Bs & Ls & U & Bp & Lp).
  assert (T : rfc_key_tag (dnskey_rdata k) = rfc_key_tag bs <-> g = f).
  { rewrite Ek, Eb. split; [|intros ->; reflexivity]. unfold rfc_key_tag.
    assert (Wt : forall v, v < 65536 -> weighted_sum true (be 2 v ++ s) = v + weighted_sum true s) by (intros v Lv; cbn [be app weighted_sum negb]; lia).
    rewrite !Wt by lia. pose proof (weighted_bound s Bs true) as Wb. set (a := weighted_sum true s) in *. intros Et. clear - Lf Lg X Ls Wb Et.
    assert (Wb' : a < 4278190080) by lia. lia. }
  split; [|split].
  - rewrite <- I. replace (rdata_to_bytes c (rr_data r)) with (Ok (be 2 g ++ s)).
    + rewrite Eb. rewrite <- (be2_inj f g s Lf Lg). split; [apply Ok_inj|intros ->; reflexivity].
    + destruct E as [E|E]; rewrite E; cbn [rdata_to_bytes]; rewrite dnskey_rdata_eq, Ek; reflexivity.
  - rewrite key_tag_ok by assumption. rewrite <- I, <- T. split; [apply Ok_inj|intros ->; reflexivity].
  - intros x owner t. rewrite ds_ok by assumption. rewrite <- I. split; [|intros ->; rewrite Ek, Eb; reflexivity]. intros [= Et _]. apply T, Et.
Qed.
(** ** What is not passed on *)
(** The data [bs] in a record of the type with number [n], received on its own, are written as [s]. *)
Definition turns_into (c : cfg) (n : N) (bs s : bytes) : Prop :=
  let d := 0 :: be 2 n ++ [0; 1; 0; 0; 0; 60] ++ be 2 (N.of_nat (length bs)) ++ bs in
  byte_list d /\ allocatable d /\ exists r, data_received c d 0 r (length d) bs /\ rdata_to_bytes c (rr_data r) = Ok s.
Ltac turn := unfold turns_into; cbv zeta; split; [vm_compute; repeat constructor|]; split; [vm_compute; discriminate|]; eexists; split;
  [split; [match goal with c : cfg |- _ => destruct c as [[|] [|] o]; try discriminate; vm_compute; reflexivity end|exists 1%nat; split; [apply name_root; reflexivity|split; [cbn; lia|reflexivity]]]
  |vm_compute; reflexivity].
(** A key that is revoked (RFC 5011: bit 8 of the flags) is passed on as one that is not. *)
Theorem C113_revoked_refuted : forall c : cfg, dnssec c = true -> turns_into c 48 [1; 129; 3; 8; 1; 2] [1; 1; 3; 8; 1; 2].
Proof. intros c D. turn. Qed.
(** So are reserved flags of CAA records, text that is not UTF-8, unknown flags of NAPTR records, the first of two options with the same code,
    the octet in place of no gateway, and octets left over. *)
Theorem C113_caa_refuted : forall c : cfg, turns_into c 257 [1; 1; 97; 98] [0; 1; 97; 98].
Proof. intros c. turn. Qed.
Theorem C113_text_refuted : forall c : cfg, turns_into c 16 [2; 255; 97] [4; 239; 191; 189; 97].
Proof. intros c. turn. Qed.
Theorem C113_naptr_refuted : forall c : cfg, turns_into c 35 [0; 1; 0; 2; 1; 63; 0; 0; 0] [0; 1; 0; 2; 0; 0; 0; 0].
Proof. intros c. turn. Qed.
Theorem C113_option_refuted : forall c : cfg, turns_into c 41 [0; 10; 0; 1; 7; 0; 10; 0; 1; 8] [0; 10; 0; 1; 8].
Proof. intros c. turn. Qed.
Theorem C113_gateway_refuted : forall c : cfg, turns_into c 45 [10; 0; 0; 7; 1; 2] [10; 0; 0; 46; 1; 2].
Proof. intros c. turn. Qed.
Theorem C113_left_over_refuted : forall c : cfg, turns_into c 1 [10; 0; 0; 1; 7] [10; 0; 0; 1].
Proof. intros c. turn. Qed.
(** Every SSHFP record loses an octet: the length that is expected before the fingerprint is not written. *)
Theorem C113_sshfp_refuted : forall (c : cfg) (d : bytes) (p : nat) (r : rr) (e : nat) (bs : bytes), byte_list d -> allocatable d -> (p <= length d)%nat ->
  data_received c d p r e bs -> rr_type r = SSHFP -> exists s, rdata_to_bytes c (rr_data r) = Ok s /\ (length s < length bs)%nat.
Proof.
  intros c d p r e bs B A L H E. destruct (received_laid _ _ _ _ _ _ B A L H) as (k & m & N & Le & -> & T & Lm & Ln & D). rewrite E in T.
  destruct (rr_data r); try discriminate T. eexists. split; [reflexivity|].
  apply sshfp_shorter in D; [rewrite skipn_length, firstn_length; lia|rewrite firstn_length; lia].
Qed.

(** Non-trivial: a signature record whose signer is written in full and a signing key. *)
Example C113_ex : let d : bytes := [0; 0; 46; 0; 1; 0; 0; 0; 60; 0; 23; 0; 1; 8; 1; 0; 0; 0; 60; 0; 0; 0; 9; 0; 0; 0; 1; 0; 7; 1; 97; 0; 5; 6] in
  byte_list d /\ allocatable d /\ exists r, data_received (mkcfg true true true) d 0 r 34 (skipn 11 d) /\ In (rr_type r) name_types /\ name_at d 191 0 (rr_name r) 1 /\
    names_in_full (firstn 34 d) (rr_type r) 11 /\ rdata_to_bytes (mkcfg true true true) (rr_data r) = Ok (skipn 11 d).
Proof.
  cbv zeta. set (d := [0; 0; 46; 0; 1; 0; 0; 0; 60; 0; 23; 0; 1; 8; 1; 0; 0; 0; 60; 0; 0; 0; 9; 0; 0; 0; 1; 0; 7; 1; 97; 0; 5; 6] : bytes).
  assert (B : byte_list d) by (repeat constructor). assert (N : name_at d 191 0 [] 1) by (apply name_root; reflexivity).
  split; [exact B|]. split; [vm_compute; discriminate|]. eexists. split; [split; [vm_compute; reflexivity|exists 1%nat; split; [exact N|split; [cbn; lia|reflexivity]]]|].
  split; [cbn; tauto|]. split; [exact N|]. split; [|reflexivity]. cbn [rr_type]. intros p f m P Nm. inversion P; subst; try (cbn in *; intuition discriminate).
  change (11 + 18)%nat with 29%nat in *. apply extract_fqdn_iff in Nm; [|exact B]. vm_compute in Nm. injection Nm as <- <-. split; [cbn; lia|reflexivity].
Qed.
Example C113_ex_key : turns_into (mkcfg true true true) 48 [1; 1; 3; 8; 1; 2] [1; 1; 3; 8; 1; 2].
Proof. remember (mkcfg true true true) as c eqn:Ec. assert (dnssec c = true) by (rewrite Ec; reflexivity). clear Ec. turn. Qed.
Print Assumptions C113_plain_partial.
Print Assumptions C113_names_partial.
Print Assumptions C113_layout_partial.
Print Assumptions C113_key_partial.
Print Assumptions C113_revoked_refuted.
Print Assumptions C113_caa_refuted.
Print Assumptions C113_text_refuted.
Print Assumptions C113_naptr_refuted.
Print Assumptions C113_option_refuted.
Print Assumptions C113_gateway_refuted.
Print Assumptions C113_left_over_refuted.
Print Assumptions C113_sshfp_refuted.
