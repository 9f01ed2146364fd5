(** * Messages that are not understood *)
From Coq Require Import Lia ZifyNat ZifyN.
From Verif Require Import Base Utf8 Buffer Fqdn Header Types RDataBasic Bitmap Svcb RDataSec RData Packet BaseFacts NameSpec
  CodeSpec RDataSpec HeaderSpec RecordSpec FieldSpec LayoutSpec ReadSpec InteropSpec.

(** The name at a place of a literal message. *)
Ltac place_name :=
  match goal with |- strict_name_at ?d _ ?p _ _ =>
    let o := eval vm_compute in (nth p d 0) in let o2 := eval vm_compute in (nth (p + 1) d 0) in
    lazymatch eval vm_compute in (o, 192 <=? o) with
    | (0, _) => apply strict_root; reflexivity
    | (_, true) => let t := eval vm_compute in (N.to_nat ((o - 192) * 256 + o2)) in
        eapply (strict_ptr d _ p t); [exists o, o2; repeat split; try reflexivity; cbn; lia|place_name|cbn; lia]
    | _ => eapply strict_label; [exists o; repeat split; try reflexivity; cbn; lia|place_name]
    end
  end.
(** Places the next field of a literal message. *)
Ltac place_field :=
  match goal with
  | |- field_at ?d (DomainName _) ?p _ => apply at_name; unfold rfc_name_at; place_name
  | |- field_at ?d (Number ?w ?v) ?p _ =>
      let b := eval vm_compute in (slice d p w) in
      apply (at_other d (Number w v) b p I); [constructor; [reflexivity|repeat constructor|reflexivity]|split; [cbn; lia|reflexivity]]
  | |- field_at ?d (Octets ?b) ?p _ => apply (at_other d (Octets b) b p I); [constructor|split; [cbn; lia|reflexivity]]
  | |- field_at ?d (CharString ?s) ?p _ => apply (at_other d (CharString s) (N.of_nat (length s) :: s) p I); [constructor; cbn; lia|split; [cbn; lia|reflexivity]]
  | |- field_at ?d (AddressPart ?n ?w ?a) ?p _ =>
      let l := eval vm_compute in (N.to_nat (nth p d 0 mod 128)) in let b := eval vm_compute in (slice d (p + 1) l) in
      apply (at_other d (AddressPart n w a) (flag n 128 + N.of_nat (length b) :: b) p I);
        [constructor; apply (afd_part w a b (w - l)%nat); [reflexivity|repeat constructor|reflexivity|discriminate]|split; [cbn; lia|reflexivity]]
  | |- field_at ?d (Registered ?w ?such) ?p _ =>
      let b := eval vm_compute in (slice d p w) in let n := eval vm_compute in (value_of b) in
      apply (at_other d (Registered w such) b p I); [apply (f_registered w such n);
        [first [unfold number_in; cbn; tauto | eexists; split; [left; cbn; tauto|reflexivity] | eexists; split; [cbn; tauto|reflexivity]]|reflexivity|repeat constructor|reflexivity]|split; [cbn; lia|reflexivity]]
  | |- field_at ?d (Prefixed ?w ?fs) ?p _ =>
      let b := eval vm_compute in (slice d p w) in let e := eval vm_compute in (p + w + N.to_nat (value_of b))%nat in
      apply (at_prefixed d w fs b p e); [split; [cbn; lia|reflexivity]|reflexivity|repeat constructor|reflexivity|]
  end.
(** A message with one answer: the owner is the root, the class IN, the TTL 60. *)
Definition answer_octets (t : N) (bs : bytes) : bytes :=
  [0; 1; 128; 0; 0; 0; 0; 1; 0; 0; 0; 0] ++ [0] ++ be 2 t ++ [0; 1; 0; 0; 0; 60] ++ be 2 (N.of_nat (length bs)) ++ bs.
Definition answer_header : header := mkheader 1 (hflags (header_new_reply 0 StandardQuery)) 0 1 0 0.
Definition answer (t : rtype) (x : rdata) : packet := mkPacket answer_header [] [mkRR [] t false CIN 60 x] [] [].
(** The same for a record of any type. *)
Definition answer_fields (t : N) (fs : list field) : list field :=
  header_fields (view answer_header) ++ [DomainName []; Number 2 t; Number 2 1; Number 4 60; Prefixed 2 fs].

(** A message laid out as its RFCs say ([fields_at] does not refer to the parser), of values the API can express, that does not parse to them. *)
Definition misread (c : cfg) (d : bytes) (p : packet) : Prop :=
  byte_list d /\ fields_at d (message_fields c p) 0 (length d) /\ header_typed (p_header p) /\ counts_of p = true_counts p /\
  Forall (fun r => rtype_exists c (rr_type r) = true /\ rdata_type (rr_data r) = rr_type r /\ rdata_typed c (rr_data r)) (records_of p) /\
  packet_try_from c d <> Ok p.
(** The same for a single answer of any type; [p] is what the parser makes of it. *)
Definition misunderstood (c : cfg) (d : bytes) (t : N) (fs : list field) (p : res packet) : Prop :=
  byte_list d /\ fields_at d (answer_fields t fs) 0 (length d) /\ packet_try_from c d = p.
Ltac start :=
  unfold message_fields, answer_fields; cbn [app flat_map answer p_header p_questions p_answers p_authorities p_additionals]; unfold header_fields, record_fields;
  cbn [app flat_map map rfc_fields rr_data rr_name gateway_fields ip_gw sv_params sv_target mdns andb rr_flush rr_class rr_type];
  match goal with |- fields_at ?d _ _ _ => let d' := eval vm_compute in d in change d with d' end.
Ltac place := first [apply at_end | eapply at_more; [place_field; try place|place]].
Ltac misread := split; [vm_compute; repeat constructor|]; split; [start; place|]; split; [repeat split; reflexivity|]; split; [reflexivity|];
  split; [repeat constructor|vm_compute; discriminate].
Ltac misunderstood := split; [vm_compute; repeat constructor|]; split; [start; place|vm_compute; reflexivity].

Lemma sshfp_misread c : exists d fp, misread c d (answer SSHFP (DSSHFP (mkSshfp AlgRSA FpSHA1 fp))).
Proof. exists (answer_octets 44 [1; 1; 10; 20; 30]), [10; 20; 30]. destruct c as [[|] [|] o]; misread. Qed.
(** Not even when the fingerprint happens to begin with its length. *)
Lemma sshfp_altered c : exists d fp fp', fp <> fp' /\ misread c d (answer SSHFP (DSSHFP (mkSshfp AlgRSA FpSHA1 fp))) /\ packet_try_from c d = Ok (answer SSHFP (DSSHFP (mkSshfp AlgRSA FpSHA1 fp'))).
Proof.
  exists (answer_octets 44 [1; 1; 2; 20; 30]), [2; 20; 30], [20; 30]. split; [discriminate|]. split; destruct c as [[|] [|] o]; [misread..|vm_compute; reflexivity|vm_compute; reflexivity|vm_compute; reflexivity|vm_compute; reflexivity].
Qed.
Lemma gateway_misread c : exists d pk pk', misread c d (answer IPSECKEY (DIPSECKEY (mkIpsec 1 AlgReserved GwNone pk))) /\
  packet_try_from c d = Ok (answer IPSECKEY (DIPSECKEY (mkIpsec 1 AlgReserved GwNone pk'))) /\ pk' = tl pk.
Proof.
  exists (answer_octets 45 [1; 0; 0; 20; 30]), [20; 30], [30]. split; [destruct c as [[|] [|] o]; misread|]. split; [|reflexivity]. destruct c as [[|] [|] o]; vm_compute; reflexivity.
Qed.
Lemma key_algorithm_misread c : exists d pk, misread c d (answer IPSECKEY (DIPSECKEY (mkIpsec 1 AlgDSA (GwV4 1) pk))) /\
  packet_try_from c d = Ok (answer IPSECKEY (DIPSECKEY (mkIpsec 1 AlgRSA (GwV4 1) pk))).
Proof.
  exists (answer_octets 45 [1; 1; 1; 0; 0; 0; 1; 20; 30]), [20; 30]. split; [destruct c as [[|] [|] o]; misread|]. destruct c as [[|] [|] o]; vm_compute; reflexivity.
Qed.
Lemma apl_misread c : exists d, misread c d (answer APL (DAPL (mkApl 8 false (AfdV4 167772160)))) /\
  packet_try_from c d = Ok (answer APL (DAPL (mkApl 8 false (AfdV4 0)))).
Proof.
  exists (answer_octets 42 [0; 1; 8; 1; 10]). split; destruct c as [[|] [|] o]; try misread; vm_compute; reflexivity.
Qed.
Lemma cds_misread c : dnssec c = true -> exists d dg, misread c d (answer CDS (DCDS (mkDs 1 RSA_SHA256 DtSHA256 dg))) /\ packet_try_from c d = Err (InvalidType 59).
Proof.
  intros D. exists (answer_octets 59 [0; 1; 8; 2; 1; 2; 3]), [1; 2; 3]. destruct c as [m [|] o]; [|discriminate]. split; destruct m; try misread; vm_compute; reflexivity.
Qed.
Lemma txt_misread c : exists d s s', misunderstood c d 16 [CharString s] (Ok (answer TXT (DTXT [s']))) /\ s' <> s.
Proof.
  exists (answer_octets 16 [1; 255]), [255], [239; 191; 189]. split; [|discriminate]. destruct c as [[|] [|] o]; misunderstood.
Qed.
Lemma unknown_type_misread c : exists d b, misunderstood c d 65280 [Octets b] (Err (InvalidType 65280)).
Proof. exists (answer_octets 65280 [1; 255]), [1; 255]. destruct c as [[|] [|] o]; misunderstood. Qed.
Lemma hints_misread c : exists d, misunderstood c d 64 [Number 2 1; DomainName []; Number 2 4; Prefixed 2 [Number 4 167772161; Number 4 167772162]] (Err (InvalidSvcbParam 2560)).
Proof. exists (answer_octets 64 [0;1;0;0;4;0;8;10;0;0;1;10;0;0;2]). destruct c as [[|] [|] o]; misunderstood. Qed.
Lemma nsec_misread c : dnssec c = true -> exists d ws, windows_ok ws /\ windows_minimal ws /\
  misunderstood c d 47 [DomainName []; Octets (flat_map window_octets ws)] (Err (InvalidType 7)).
Proof.
  intros D. exists (answer_octets 47 [0; 0; 1; 1]), [(0, [1])]. split; [|split].
  - split; [repeat constructor|]. repeat constructor; cbn; lia.
  - repeat constructor. discriminate.
  - destruct c as [m [|] o]; [|discriminate]. destruct m; misunderstood.
Qed.
