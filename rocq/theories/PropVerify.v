(** * Property C66: a signature is accepted only when RFC 4035 allows its use *)
From Coq Require Import Lia ZifyBool ZifyNat ZifyN.
From Verif Require Import Base Utf8 Buffer Fqdn Types RDataBasic Bitmap Svcb RDataSec RData Packet BaseFacts BufferFacts NameSpec FqdnFacts
  CodeSpec RDataSpec RDataFacts RecordSpec RDataReads Dnssec DnssecSpec DnssecFacts PropName PropRecord PropDnssec VerifySpec.

Lemma pair_accepts x key pk a seed m sig : key_pair x key pk a -> sign_data x seed a m key = Ok sig -> accepts x pk m sig a.
Proof.
  intros K Es. destruct K as [a e' n I R H|H|H|H|H]; cbn [sign_data] in Es.
  - cbn [In] in I. destruct I as [<-|[<-|[]]]; cbn [sign_data] in Es; apply ok_or_ok in Es; apply H in Es; econstructor; eassumption.
  - apply ok_or_ok, H in Es. constructor. exact Es.
  - apply ok_or_ok, H in Es. constructor. exact Es.
  - apply ok_or_ok, H in Es. constructor. exact Es.
  - apply ok_or_ok, H in Es. constructor. exact Es.
Qed.
Lemma toy_pair key pk : key_pair toy key pk ED25519.
Proof. apply pair_ed25519. intros m sg H. injection H as <-. cbn [toy ed25519_verify]. unfold same. destruct (list_eq_dec N.eq_dec m m); [reflexivity|contradiction]. Qed.

(** ** C66: false.  Whatever the fields of the signature record and of the key say, apart from the algorithm:
    who can sign the octets can make verification succeed. *)
Theorem C66_unchecked_refuted : forall (c : cfg) (x : prims) (bs : bsearch) (seed key sig : bytes) (r : rrsig) (k : dnskey) (s : rrset) (ds : list bytes),
  search_contract bs -> canonical_data c s ds -> byte_list (dk_pk k) -> rs_alg r = dk_alg k -> key_pair x key (dk_pk k) (dk_alg k) ->
  sign_data x seed (dk_alg k) (signed_octets r s ds) key = Ok sig -> rrsig_verify c x bs (signed_with r sig) k s = Ok true.
Proof.
  intros c x bs seed key sig r k s ds C D B A K E. apply (verify_iff c x bs (signed_with r sig) k s ds C B D). split; [exact A|].
  eapply pair_accepts; [exact K|]. exact E.
Qed.
(** Signatures made with the library itself that are accepted although they have expired, have not begun,
    were made with a key that is no zone key or for another protocol, or name another key. *)
Theorem C66_expired_refuted : exists (x : prims) (k : dnskey) (s : rrset) (r : rrsig), key_pair x [] (dk_pk k) (dk_alg k) /\
  rrsig_from_dnskey ex_cfg x linear_search [] k s day (2 * day)%Z [] = Ok r /\ rrsig_verify ex_cfg x linear_search r k s = Ok true /\
  forall now, now = 1000000000 -> ~ usable now r k s.
Proof.
  exists toy, (ex_key ED25519 [1]), ex_set. eexists. split; [apply toy_pair|]. split; [vm_compute; reflexivity|]. split; [vm_compute; reflexivity|].
  intros now -> U. pose proof (not_expired _ _ _ _ U) as H. vm_compute in H. discriminate H.
Qed.
Theorem C66_early_refuted : exists (x : prims) (k : dnskey) (s : rrset) (r : rrsig), key_pair x [] (dk_pk k) (dk_alg k) /\
  rrsig_from_dnskey ex_cfg x linear_search [] k s day (2 * day)%Z [] = Ok r /\ rrsig_verify ex_cfg x linear_search r k s = Ok true /\
  forall now, now = 86400 -> ~ usable now r k s.
Proof.
  exists toy, (ex_key ED25519 [1]), ex_set. eexists. split; [apply toy_pair|]. split; [vm_compute; reflexivity|]. split; [vm_compute; reflexivity|].
  intros now -> U. pose proof (begun _ _ _ _ U) as H. vm_compute in H. discriminate H.
Qed.
Theorem C66_key_refuted : exists (x : prims) (k : dnskey) (s : rrset) (r : rrsig), key_pair x [] (dk_pk k) (dk_alg k) /\
  rrsig_from_dnskey ex_cfg x linear_search [] k s day (2 * day)%Z [] = Ok r /\ rrsig_verify ex_cfg x linear_search r k s = Ok true /\
  dk_zone k = false /\ dk_protocol k <> 3.
Proof.
  exists toy, (mkDnskey false false 2 ED25519 [1]), ex_set. eexists. split; [apply toy_pair|]. split; [vm_compute; reflexivity|]. split; [vm_compute; reflexivity|].
  split; [reflexivity|discriminate].
Qed.
Theorem C66_tag_refuted : exists (x : prims) (k k' : dnskey) (s : rrset) (r : rrsig), key_pair x [] (dk_pk k) (dk_alg k) /\
  rrsig_from_dnskey ex_cfg x linear_search [] k s day (2 * day)%Z [] = Ok r /\ rrsig_verify ex_cfg x linear_search r k' s = Ok true /\
  rs_tag r <> rfc_key_tag (dnskey_rdata k').
Proof.
  exists toy, (ex_key ED25519 [1]), (mkDnskey true true 3 ED25519 [1]), ex_set. eexists. split; [apply toy_pair|].
  split; [vm_compute; reflexivity|]. split; [vm_compute; reflexivity|]. vm_compute. discriminate.
Qed.
(** Signature records, not made with the library, that cover another type, have too many labels, or are
    signed for an unrelated zone. *)
Theorem C66_record_refuted : exists (x : prims) (k : dnskey) (s : rrset) (r : rrsig), key_pair x [] (dk_pk k) (dk_alg k) /\
  rrsig_verify ex_cfg x linear_search r k s = Ok true /\ rs_type r <> set_type s /\
  (rfc_labels (set_name s) < N.to_nat (rs_labels r))%nat /\ ~ at_or_below (set_name s) (rs_signer r).
Proof.
  exists toy, (ex_key ED25519 [1]), ex_set.
  pose (r := mkRrsig MX ED25519 200 3600 2 1 7 [[120]] []).
  exists (signed_with r (signed_octets r ex_set [[0; 0; 0; 1]; [0; 0; 0; 2]; [0; 0; 0; 3]])). split; [apply toy_pair|]. split.
  - eapply (C66_unchecked_refuted ex_cfg toy linear_search [] [] _ r); [apply linear_search_ok| |repeat constructor|reflexivity|apply toy_pair|reflexivity].
    apply C38_ex.
  - split; [discriminate|]. split; [cbn [rfc_labels ex_set set_name ex_www signed_with rs_labels r length]; vm_compute; lia|].
    intros (front & H). cbn [ex_set set_name ex_www signed_with rs_signer r] in H. apply (f_equal (fun l => last l [])) in H. rewrite last_last in H. discriminate H.
Qed.
(** What success does show: the algorithms agree, and the primitive accepts the signature for the octets that
    hold every field of the signature record and the whole set (C39_octets_determine). *)
Theorem C66_algorithm_partial : forall (c : cfg) (x : prims) (bs : bsearch) (r : rrsig) (k : dnskey) (s : rrset) (ds : list bytes),
  search_contract bs -> byte_list (dk_pk k) -> canonical_data c s ds -> rrsig_verify c x bs r k s = Ok true ->
  rs_alg r = dk_alg k /\ accepts x (dk_pk k) (signed_octets r s ds) (rs_sig r) (rs_alg r).
Proof. intros c x bs r k s ds C B D H. apply (verify_iff c x bs r k s ds C B D) in H. destruct H as (A & H). rewrite A at 2. split; assumption. Qed.
(** Signatures made with the library do cover the type of the set, count no more labels than its name has
    (wildcards apart, C55), and name the key they were made with. *)
Theorem C66_made_partial : forall (c : cfg) (x : prims) (bs : bsearch) seed (k : dnskey) (s : rrset) (inc exp : time) key (r : rrsig),
  U8 (dk_protocol k) -> byte_list (dk_pk k) -> N.of_nat (length (dk_pk k)) <= 131064 ->
  (length (set_name s) <= 255)%nat -> hd [] (set_name s) <> [42] -> dk_zone k = true -> dk_protocol k = 3 ->
  rrsig_from_dnskey c x bs seed k s inc exp key = Ok r ->
  forall now, not_after (rs_inc r) now -> not_after now (rs_exp r) -> usable now r k s.
Proof.
  intros c x bs seed k s inc exp key r P B L F W Z V E now I X.
  destruct (C55_fields_partial c x bs seed k s inc exp key r E) as (T & A & _ & G & K & NL).
  rewrite (C40_key_tag_partial c k P B L) in K. apply Ok_inj in K. apply (proj2 (NL F)) in W as NL'; clear NL; rename NL' into NL.
  apply mkUsable; try assumption; [rewrite NL, Nnat.Nat2N.id; apply le_n|exists []; rewrite G; reflexivity|symmetry; exact K].
Qed.
Example C66_ex : exists r, rrsig_from_dnskey ex_cfg toy linear_search [] (ex_key ED25519 [1]) ex_set day (2 * day)%Z [] = Ok r /\
  rrsig_verify ex_cfg toy linear_search r (ex_key ED25519 [1]) ex_set = Ok true /\ usable 100000000 r (ex_key ED25519 [1]) ex_set.
Proof.
  eexists. split; [vm_compute; reflexivity|]. split; [vm_compute; reflexivity|].
  apply mkUsable; try reflexivity. exists []; reflexivity.
Qed.
Print Assumptions C66_unchecked_refuted.
Print Assumptions C66_expired_refuted.
Print Assumptions C66_early_refuted.
Print Assumptions C66_key_refuted.
Print Assumptions C66_tag_refuted.
Print Assumptions C66_record_refuted.
Print Assumptions C66_algorithm_partial.
Print Assumptions C66_made_partial.
