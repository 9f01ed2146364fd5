(** * Facts about [==]. *)
From Coq Require Import Lia ZifyBool ZifyNat ZifyN Permutation.
From Verif Require Import Base Buffer Fqdn Types Header RDataBasic RDataSec Svcb Bitmap RData Packet Dnssec Api Equality BaseFacts ObjectFacts DnssecFacts.

Definition decides {X} (eqb : X -> X -> bool) : Prop := forall a b, eqb a b = true <-> a = b.
Lemma vec_eqb_rel {X} (eqb : X -> X -> bool) (R : X -> X -> Prop) (a b : list X) :
  (forall x y, In x a -> In y b -> (eqb x y = true <-> R x y)) -> (vec_eqb eqb a b = true <-> Forall2 R a b).
Proof.
  revert b. induction a as [|x a IH]; intros [|y b] H; cbn [vec_eqb].
  - split; [constructor|reflexivity].
  - split; [discriminate|intros F; inversion F].
  - split; [discriminate|intros F; inversion F].
  - rewrite andb_true_iff, (H x y (or_introl eq_refl) (or_introl eq_refl)), (IH b) by (intros; apply H; right; assumption).
    split; [intros (E & F); constructor; assumption|]. intros F. inversion F; subst. split; assumption.
Qed.
Lemma Forall2_eq {X} (a b : list X) : Forall2 eq a b <-> a = b.
Proof. split; [induction 1; congruence|]. intros <-. induction a; constructor; auto. Qed.
Lemma vec_eqb_iff {X} (eqb : X -> X -> bool) : decides eqb -> decides (vec_eqb eqb).
Proof. intros D a b. rewrite (vec_eqb_rel eqb eq) by (intros; apply D). apply Forall2_eq. Qed.
Lemma option_eqb_iff {X} (eqb : X -> X -> bool) : decides eqb -> decides (option_eqb eqb).
Proof. intros D [x|] [y|]; cbn [option_eqb]; [rewrite (D x y)| | |]; split; congruence. Qed.
Lemma N_iff : decides N.eqb. Proof. intros a b. apply N.eqb_eq. Qed.
Lemma bool_iff : decides Bool.eqb. Proof. intros a b. apply Bool.eqb_true_iff. Qed.
Lemma bytes_iff : decides bytes_eqb. Proof. intros a b. apply bytes_eqb_iff. Qed.
Lemma fqdn_iff : decides fqdn_eqb. Proof. intros a b. apply fqdn_eqb_iff. Qed.
Lemma salg_iff : decides salg_eqb. Proof. intros a b. apply salg_eqb_eq. Qed.
Create HintDb eqbs.
#[export] Hint Resolve N_iff bool_iff bytes_iff fqdn_iff salg_iff vec_eqb_iff option_eqb_iff : eqbs.
Ltac fields_of H := repeat match type of H with _ && _ = true => let E := fresh "E" in apply andb_prop in H; destruct H as (H & E) end.
Ltac eqb_step := match goal with E : ?f ?x ?y = true |- _ => let D := fresh "D" in assert (D : decides f) by auto with eqbs; apply (proj1 (D x y)) in E; clear D; cbn in E; subst end.
Ltac refl_step := match goal with |- ?f ?x ?x = true => let D := fresh "D" in assert (D : decides f) by auto with eqbs; apply (proj2 (D x x)); reflexivity end.
Ltac eqb_solve f :=
  let a := fresh in let b := fresh in let H := fresh in
  intros a b; split; [intros H; destruct a, b; unfold f in H; cbn in H; try discriminate H; fields_of H; repeat eqb_step; reflexivity
                     |intros <-; destruct a; unfold f; cbn; repeat (apply andb_true_intro; split); try reflexivity; refl_step].
Lemma rtype_iff : decides rtype_eqb. Proof. eqb_solve rtype_eqb. Qed.
#[export] Hint Resolve rtype_iff : eqbs.
Lemma qtype_iff : decides qtype_eqb. Proof. eqb_solve qtype_eqb. Qed.
#[export] Hint Resolve qtype_iff : eqbs.
Lemma qclass_iff : decides qclass_eqb. Proof. eqb_solve qclass_eqb. Qed.
#[export] Hint Resolve qclass_iff : eqbs.
Lemma rclass_iff : decides rclass_eqb. Proof. eqb_solve rclass_eqb. Qed.
#[export] Hint Resolve rclass_iff : eqbs.
Lemma flags_iff : decides flags_eqb. Proof. eqb_solve flags_eqb. Qed.
#[export] Hint Resolve flags_iff : eqbs.
Lemma opcode_iff : decides opcode_eqb. Proof. eqb_solve opcode_eqb. Qed.
#[export] Hint Resolve opcode_iff : eqbs.
Lemma response_code_iff : decides response_code_eqb. Proof. eqb_solve response_code_eqb. Qed.
#[export] Hint Resolve response_code_iff : eqbs.
Lemma header_iff : decides header_eqb. Proof. eqb_solve header_eqb. Qed.
#[export] Hint Resolve header_iff : eqbs.
Lemma alg_iff : decides alg_eqb. Proof. eqb_solve alg_eqb. Qed.
#[export] Hint Resolve alg_iff : eqbs.
Lemma afd_iff : decides afd_eqb. Proof. eqb_solve afd_eqb. Qed.
#[export] Hint Resolve afd_iff : eqbs.
Lemma apl_iff : decides apl_eqb. Proof. eqb_solve apl_eqb. Qed.
#[export] Hint Resolve apl_iff : eqbs.
Lemma caa_iff : decides caa_eqb. Proof. eqb_solve caa_eqb. Qed.
#[export] Hint Resolve caa_iff : eqbs.
Lemma idtype_iff : decides idtype_eqb. Proof. eqb_solve idtype_eqb. Qed.
#[export] Hint Resolve idtype_iff : eqbs.
Lemma dhcid_iff : decides dhcid_eqb. Proof. eqb_solve dhcid_eqb. Qed.
#[export] Hint Resolve dhcid_iff : eqbs.
Lemma hinfo_iff : decides hinfo_eqb. Proof. eqb_solve hinfo_eqb. Qed.
#[export] Hint Resolve hinfo_iff : eqbs.
Lemma hip_iff : decides hip_eqb. Proof. eqb_solve hip_eqb. Qed.
#[export] Hint Resolve hip_iff : eqbs.
Lemma gateway_iff : decides gateway_eqb. Proof. eqb_solve gateway_eqb. Qed.
#[export] Hint Resolve gateway_iff : eqbs.
Lemma ipseckey_iff : decides ipseckey_eqb. Proof. eqb_solve ipseckey_eqb. Qed.
#[export] Hint Resolve ipseckey_iff : eqbs.
Lemma loc_iff : decides loc_eqb. Proof. eqb_solve loc_eqb. Qed.
#[export] Hint Resolve loc_iff : eqbs.
Lemma minfo_iff : decides minfo_eqb. Proof. eqb_solve minfo_eqb. Qed.
#[export] Hint Resolve minfo_iff : eqbs.
Lemma mx_iff : decides mx_eqb. Proof. eqb_solve mx_eqb. Qed.
#[export] Hint Resolve mx_iff : eqbs.
Lemma nflag_iff : decides nflag_eqb. Proof. eqb_solve nflag_eqb. Qed.
#[export] Hint Resolve nflag_iff : eqbs.
Lemma naptr_iff : decides naptr_eqb. Proof. eqb_solve naptr_eqb. Qed.
#[export] Hint Resolve naptr_iff : eqbs.
Lemma soa_iff : decides soa_eqb. Proof. eqb_solve soa_eqb. Qed.
#[export] Hint Resolve soa_iff : eqbs.
Lemma srv_iff : decides srv_eqb. Proof. eqb_solve srv_eqb. Qed.
#[export] Hint Resolve srv_iff : eqbs.
Lemma fptype_iff : decides fptype_eqb. Proof. eqb_solve fptype_eqb. Qed.
#[export] Hint Resolve fptype_iff : eqbs.
Lemma sshfp_iff : decides sshfp_eqb. Proof. eqb_solve sshfp_eqb. Qed.
#[export] Hint Resolve sshfp_iff : eqbs.
Lemma cert_usage_iff : decides cert_usage_eqb. Proof. eqb_solve cert_usage_eqb. Qed.
#[export] Hint Resolve cert_usage_iff : eqbs.
Lemma selector_iff : decides selector_eqb. Proof. eqb_solve selector_eqb. Qed.
#[export] Hint Resolve selector_iff : eqbs.
Lemma matching_iff : decides matching_eqb. Proof. eqb_solve matching_eqb. Qed.
#[export] Hint Resolve matching_iff : eqbs.
Lemma tlsa_iff : decides tlsa_eqb. Proof. eqb_solve tlsa_eqb. Qed.
#[export] Hint Resolve tlsa_iff : eqbs.
Lemma tkmode_iff : decides tkmode_eqb. Proof. eqb_solve tkmode_eqb. Qed.
#[export] Hint Resolve tkmode_iff : eqbs.
Lemma tkerr_iff : decides tkerr_eqb. Proof. eqb_solve tkerr_eqb. Qed.
#[export] Hint Resolve tkerr_iff : eqbs.
Lemma tkey_iff : decides tkey_eqb. Proof. eqb_solve tkey_eqb. Qed.
#[export] Hint Resolve tkey_iff : eqbs.
Lemma tserr_iff : decides tserr_eqb. Proof. eqb_solve tserr_eqb. Qed.
#[export] Hint Resolve tserr_iff : eqbs.
Lemma tsig_iff : decides tsig_eqb. Proof. eqb_solve tsig_eqb. Qed.
#[export] Hint Resolve tsig_iff : eqbs.
Lemma uri_iff : decides uri_eqb. Proof. eqb_solve uri_eqb. Qed.
#[export] Hint Resolve uri_iff : eqbs.
Lemma wks_iff : decides wks_eqb. Proof. eqb_solve wks_eqb. Qed.
#[export] Hint Resolve wks_iff : eqbs.
Lemma digest_type_iff : decides digest_type_eqb. Proof. eqb_solve digest_type_eqb. Qed.
#[export] Hint Resolve digest_type_iff : eqbs.
Lemma nsec_iff : decides nsec_eqb. Proof. eqb_solve nsec_eqb. Qed.
#[export] Hint Resolve nsec_iff : eqbs.
Lemma dnskey_iff : decides dnskey_eqb. Proof. eqb_solve dnskey_eqb. Qed.
#[export] Hint Resolve dnskey_iff : eqbs.
Lemma ds_iff : decides ds_eqb. Proof. eqb_solve ds_eqb. Qed.
#[export] Hint Resolve ds_iff : eqbs.
Lemma rrsig_iff : decides rrsig_eqb. Proof. eqb_solve rrsig_eqb. Qed.
#[export] Hint Resolve rrsig_iff : eqbs.
Lemma csync_iff : decides csync_eqb. Proof. eqb_solve csync_eqb. Qed.
#[export] Hint Resolve csync_iff : eqbs.
Lemma pkey_iff : decides pkey_eqb. Proof. eqb_solve pkey_eqb. Qed.
#[export] Hint Resolve pkey_iff : eqbs.
Lemma param_iff : decides param_eqb. Proof. eqb_solve param_eqb. Qed.
#[export] Hint Resolve param_iff : eqbs.
Lemma svcb_iff : decides svcb_eqb. Proof. eqb_solve svcb_eqb. Qed.
#[export] Hint Resolve svcb_iff : eqbs.
Lemma question_iff : decides question_eqb. Proof. eqb_solve question_eqb. Qed.
#[export] Hint Resolve question_iff : eqbs.
