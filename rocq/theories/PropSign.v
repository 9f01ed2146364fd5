(** * Property C92: signatures made by others *)
From Coq Require Import Sorting.Permutation Sorting.Sorted Lia ZifyBool ZifyNat ZifyN.
From Verif Require Import Base Buffer Fqdn Types RDataBasic RDataSec RData Packet Dnssec BaseFacts ObjectSpec RDataSpec RecordSpec DnssecSpec DnssecFacts
  SignSpec PropName PropRecord PropDnssec.

(** ** The octets of the RFCs are determined, and there are some for every set that can be written *)
Lemma lt_sorted_unique a : forall b, StronglySorted octets_lt a -> StronglySorted octets_lt b -> (forall x, In x a <-> In x b) -> a = b.
Proof.
  induction a as [|x a IH]; intros [|y b] Sa Sb H.
  - reflexivity.
  - destruct (proj2 (H y) (or_introl eq_refl)).
  - destruct (proj1 (H x) (or_introl eq_refl)).
  - inversion Sa as [|? ? Sa' Fa]; subst. inversion Sb as [|? ? Sb' Fb]; subst. rewrite Forall_forall in Fa, Fb.
    assert (x = y) as ->.
    { destruct (proj1 (H x) (or_introl eq_refl)) as [E|I1]; [auto|]. destruct (proj2 (H y) (or_introl eq_refl)) as [E|I2]; [auto|].
      exfalso. apply (lt_irrefl x). eapply lt_trans; [apply Fa, I2|apply Fb, I1]. }
    f_equal. apply IH; [exact Sa'|exact Sb'|]. intros z. split; intros I.
    + destruct (proj1 (H z) (or_intror I)) as [<-|J]; [|exact J]. exfalso. apply (lt_irrefl y). apply Fa, I.
    + destruct (proj2 (H z) (or_intror I)) as [<-|J]; [|exact J]. exfalso. apply (lt_irrefl y). apply Fb, I.
Qed.
Theorem C92_unique : forall (c : cfg) (r : rrsig) (s : rrset) (a b : bytes), rfc_signed c r s a -> rfc_signed c r s b -> a = b.
Proof.
  intros c r s a b (f & ds & N1 & (S1 & I1) & ->) (g & ds' & N2 & (S2 & I2) & ->).
  assert (ds = ds') as <- by (apply lt_sorted_unique; [exact S1|exact S2|intros x; rewrite I1, I2; reflexivity]).
  assert (f = g) as <- by (destruct N1 as [(E1 & ->)|(L1 & ->)], N2 as [(E2 & ->)|(L2 & ->)]; try reflexivity; lia). reflexivity.
Qed.

(** ** Proved: where the set is at hand as it was signed, the octets checked are those of the RFCs *)
Definition as_signed (r : rrsig) (s : rrset) : Prop :=
  lower_name (set_name s) = set_name s /\ lower_name (rs_signer r) = rs_signer r /\ Forall (fun d => lower_data d = d) (set_records s) /\
  set_ttl s = rs_ttl r /\ rs_labels r = N.of_nat (length (set_name s)).
Lemma as_signed_octets c r s out : as_signed r s -> NoDup (map (rdata_to_bytes c) (set_records s)) ->
  (exists w, Forall2 (fun d b => rdata_to_bytes c d = Ok b) (set_records s) w) -> rfc_signed c r s out ->
  exists ds, canonical_data c s ds /\ out = signed_octets r s ds.
Proof.
  intros (Ln & Lg & Ld & T & K) ND (w & W) (f & ds & SN & (S & I) & ->). exists ds. rewrite Ln in SN. rewrite Lg.
  assert (f = set_name s) as -> by (destruct SN as [(_ & E)|(L & _)]; [exact E|lia]).
  split; [|unfold signed_octets, full_record; rewrite T; reflexivity].
  exists w. split; [exact W|]. split.
  - apply NoDup_Permutation.
    + clear - S. induction S as [|x l S IH F]; constructor; [|exact IH]. intros I. rewrite Forall_forall in F. apply (lt_irrefl x), F, I.
    + clear - ND W. induction W as [|d b l w E W IH]; [constructor|]. cbn [map] in ND. inversion ND as [|? ? NI ND']; subst. constructor; [|apply IH, ND'].
      intros Ib. apply NI. rewrite E. clear - W Ib. induction W as [|d' b' l w E' W IH]; [destruct Ib|]. cbn [map]. destruct Ib as [->|Ib]; [left; exact E'|right; apply IH, Ib].
    + intros b. rewrite I. clear - W Ld. induction W as [|d b' l w E W IH]; [split; [intros (d & [] & _)|intros []]|].
      inversion Ld as [|? ? Ld1 Ld2]; subst. split.
      * intros (d' & [<-|J] & E'); [left; rewrite Ld1 in E'; congruence|right; apply IH; [exact Ld2|exists d'; auto]].
      * intros [->|J]; [exists d; split; [left; reflexivity|rewrite Ld1; exact E]|]. apply IH in J; [|exact Ld2]. destruct J as (d' & J & E'). exists d'. split; [right; exact J|exact E'].
  - clear - S. unfold in_order. induction S as [|x l S IH F]; constructor; [exact IH|]. eapply Forall_impl; [|exact F]. intros y Y. right. exact Y.
Qed.
(** [accepts]: what the primitives of each algorithm are asked (C39). *)
Theorem C92_octets_partial : forall (c : cfg) (x : prims) (bs : bsearch) (r : rrsig) (k : dnskey) (s : rrset) (out : bytes),
  search_contract bs -> byte_list (dk_pk k) -> Forall (rdata_typed c) (set_records s) -> Forall (rdata_writable c) (set_records s) ->
  as_signed r s -> NoDup (map (rdata_to_bytes c) (set_records s)) -> rfc_signed c r s out ->
  (rrsig_verify c x bs r k s = Ok true <-> rs_alg r = dk_alg k /\ accepts x (dk_pk k) out (rs_sig r) (dk_alg k)).
Proof.
  intros c x bs r k s out C B T W A ND R. destruct (all_written c _ T W) as (w & Ww).
  destruct (as_signed_octets c r s out A ND (ex_intro _ w Ww) R) as (ds & D & ->). apply verify_iff; assumption.
Qed.
(** So signatures of Ed25519 and Ed448 that others made are accepted. *)
Theorem C92_edwards_partial : forall (c : cfg) (x : prims) (bs : bsearch) (r : rrsig) (k : dnskey) (s : rrset) (out : bytes),
  search_contract bs -> byte_list (dk_pk k) -> Forall (rdata_typed c) (set_records s) -> Forall (rdata_writable c) (set_records s) ->
  as_signed r s -> NoDup (map (rdata_to_bytes c) (set_records s)) -> rfc_signed c r s out -> rs_alg r = dk_alg k ->
  (dk_alg k = ED25519 /\ ed25519_verify x (dk_pk k) out (rs_sig r) = true \/ dk_alg k = ED448 /\ ed448_verify x (dk_pk k) (rs_sig r) out = Some true) ->
  rrsig_verify c x bs r k s = Ok true.
Proof.
  intros c x bs r k s out C B T W A ND R E V. apply (C92_octets_partial c x bs r k s out); try assumption. split; [exact E|].
  destruct V as [(-> & V)|(-> & V)]; constructor; exact V.
Qed.
(** What the library signs is what the RFCs say, for sets in canonical form without wildcard. *)
Theorem C92_made_partial : forall (c : cfg) (x : prims) (bs : bsearch) seed (k : dnskey) (s : rrset) (inc exp : time) key (r : rrsig) (out : bytes),
  search_contract bs -> Forall (rdata_typed c) (set_records s) -> Forall (rdata_writable c) (set_records s) ->
  lower_name (set_name s) = set_name s -> Forall (fun d => lower_data d = d) (set_records s) -> (length (set_name s) <= 255)%nat ->
  NoDup (map (rdata_to_bytes c) (set_records s)) ->
  rrsig_from_dnskey c x bs seed k s inc exp key = Ok r -> rfc_signed c r s out -> sign_data x seed (dk_alg k) out key = Ok (rs_sig r).
Proof.
  intros c x bs seed k s inc exp key r out C T W Ln Ld L ND E R.
  destruct (from_dnskey_ok c x bs seed k s inc exp key r C T W E) as (ds & tag & i & e & D & _ & _ & _ & Er & Es).
  destruct (all_written c _ T W) as (w & Ww).
  assert (A : as_signed r s).
  { rewrite Er. unfold as_signed. cbn [rs_signer rs_ttl rs_labels]. split; [exact Ln|]. split; [exact Ln|]. split; [exact Ld|]. split; [reflexivity|].
    unfold fqdn_label_count, len8. apply N.mod_small. lia. }
  destruct (as_signed_octets c r s out A ND (ex_intro _ w Ww) R) as (ds' & D' & ->). rewrite <- (canonical_unique c s ds ds' D D'). exact Es.
Qed.

(** ** Refuted: the other algorithms *)

(** RSA: the digest is compared without the DigestInfo that signatures contain.  Whatever was signed. *)
Theorem C92_rsa_refuted : forall (c : cfg) (x : prims) (bs : bsearch) (r : rrsig) (k : dnskey) (s : rrset) e n opens (out : bytes),
  byte_list (dk_pk k) -> In (dk_alg k) [RSA_MD5; RSA_SHA1; RSA_SHA256; RSA_SHA512] -> rsa_public (dk_pk k) e n -> compares_unprefixed x e n opens ->
  one_length (rsa_hash_of x (dk_alg k)) ->
  opens (rs_sig r) = Some (rsa_digest_info (dk_alg k) ++ rsa_hash_of x (dk_alg k) out) ->
  rrsig_verify c x bs r k s <> Ok true.
Proof.
  intros c x bs r k s e n opens out B A P CU OL O E. unfold rrsig_verify in E.
  destruct (salg_eqb (rs_alg r) (dk_alg k)) eqn:Ea; cbn [negb] in E; [|discriminate E]. apply salg_eqb_eq in Ea. rewrite Ea in E.
  apply rbind_iff in E. destruct E as (m & _ & E). apply (rsa_parts_iff _ e n B) in P.
  assert (V : rsa_verify x n e (rsa_hash_of x (dk_alg k) m) (rs_sig r) = Some true).
  { destruct A as [A|[A|[A|[A|[]]]]]; rewrite <- A in E |- *; cbn [verify_with verify_hash rsa_hash_of] in *; rewrite P in E; cbn [rbind fst snd] in E; apply ok_or_ok in E; exact E. }
  apply CU in V. rewrite O in V. injection V as V. apply (f_equal (@length N)) in V. rewrite app_length, (OL out m) in V.
  destruct A as [A|[A|[A|[A|[]]]]]; rewrite <- A in V; cbn [rsa_digest_info digest_info length] in V; lia.
Qed.
(** ECDSA: keys as they stand in DNSKEY records are not taken. *)
Theorem C92_ecdsa_refuted : forall (c : cfg) (x : prims) (bs : bsearch) (r : rrsig) (k : dnskey) (s : rrset) (cv : curve),
  wants_point x -> dk_alg k = match cv with P256 => ECDSA_P256 | P384 => ECDSA_P384 end -> rfc6605_key cv (dk_pk k) ->
  rrsig_verify c x bs r k s <> Ok true.
Proof.
  intros c x bs r k s cv WP A L E. unfold rrsig_verify in E.
  destruct (salg_eqb (rs_alg r) (dk_alg k)) eqn:Ea; cbn [negb] in E; [|discriminate E]. apply salg_eqb_eq in Ea. rewrite Ea, A in E.
  apply rbind_iff in E. destruct E as (m & _ & E). unfold rfc6605_key in L.
  destruct cv; cbn [verify_with verify_hash] in E; rewrite whole_key in E; cbn [rbind] in E; injection E as E; apply WP in E; destruct E as (xy & Ex & Lx); rewrite Ex in L; cbn [length] in L; lia.
Qed.
(** DSA: signatures of RFC 2536 are an error. *)
Theorem C92_dsa_refuted : forall (c : cfg) (x : prims) (bs : bsearch) (r : rrsig) (k : dnskey) (s : rrset) (b : bool),
  wants_der x -> dk_alg k = DSA_SHA1 -> rfc2536_signature (rs_sig r) -> rrsig_verify c x bs r k s <> Ok b.
Proof.
  intros c x bs r k s b WD A (t & rs & S & T & _) E. unfold rrsig_verify in E.
  destruct (salg_eqb (rs_alg r) (dk_alg k)) eqn:Ea; cbn [negb] in E; [|discriminate E]. apply salg_eqb_eq in Ea. rewrite Ea, A in E.
  apply rbind_iff in E. destruct E as (m & _ & E). cbn [verify_with] in E. apply rbind_iff in E. destruct E as ([[[p q] g] y] & _ & E).
  apply ok_or_ok in E. apply WD in E. destruct E as (rest & E). rewrite S in E. injection E as E _. lia.
Qed.

(** ** Refuted: sets that are not at hand as they were signed.  [toy]: signatures are the signed octets. *)
Definition sig_octets (labels ttl : N) (f : fqdn) : bytes :=
  be 2 1 ++ [15; labels] ++ be 4 ttl ++ be 4 2 ++ be 4 1 ++ be 2 7 ++ [1; 97; 0] ++ fqdn_to_bytes f ++ be 2 1 ++ be 2 1 ++ be 4 ttl ++ be 2 4 ++ be 4 9.
Definition signed_by (labels ttl : N) (f : fqdn) : rrsig := mkRrsig A ED25519 labels ttl 2 1 7 [[97]] (sig_octets labels ttl f).
Lemma one_record c s : (exists n, set_records s = repeat (DA 9) (S n)) -> canonical_set c s [be 4 9].
Proof.
  intros (n & E). split; [repeat constructor|]. intros b. rewrite E. split.
  - intros [<-|[]]. exists (DA 9). split; [left; reflexivity|reflexivity].
  - intros (d & I & W). apply repeat_spec in I. subst d. left. injection W as <-. reflexivity.
Qed.
(** What a conforming signer signs is accepted by the primitive and rejected by the library. *)
Definition wrongly_rejected (r : rrsig) (s : rrset) : Prop := forall c : cfg,
  rfc_signed c r s (rs_sig r) /\ ed25519_verify toy [1] (rs_sig r) (rs_sig r) = true /\ rrsig_verify c toy linear_search r (ex_key ED25519 [1]) s = Ok false.
(** An answer made from a wildcard, here *.a: *)
Theorem C92_wildcard_refuted : wrongly_rejected (signed_by 1 60 [[42]; [97]]) (mkRRset [[98]; [97]] A CIN 60 [DA 9]).
Proof.
  intros c. split; [|split; [reflexivity|destruct c as [[|] [|] [|]]; vm_compute; reflexivity]].
  exists [[42]; [97]], [be 4 9]. split; [right; split; reflexivity|]. split; [apply one_record; exists 0%nat; reflexivity|reflexivity].
Qed.
(** the TTL has been counting down in a cache, *)
Theorem C92_ttl_refuted : wrongly_rejected (signed_by 2 60 [[98]; [97]]) (mkRRset [[98]; [97]] A CIN 59 [DA 9]).
Proof.
  intros c. split; [|split; [reflexivity|destruct c as [[|] [|] [|]]; vm_compute; reflexivity]].
  exists [[98]; [97]], [be 4 9]. split; [left; split; reflexivity|]. split; [apply one_record; exists 0%nat; reflexivity|reflexivity].
Qed.
(** the owner is written with a capital letter, *)
Theorem C92_case_refuted : wrongly_rejected (signed_by 2 60 [[98]; [97]]) (mkRRset [[66]; [97]] A CIN 60 [DA 9]).
Proof.
  intros c. split; [|split; [reflexivity|destruct c as [[|] [|] [|]]; vm_compute; reflexivity]].
  exists [[98]; [97]], [be 4 9]. split; [left; split; reflexivity|]. split; [apply one_record; exists 0%nat; reflexivity|reflexivity].
Qed.
(** or a record is there twice. *)
Theorem C92_twice_refuted : wrongly_rejected (signed_by 2 60 [[98]; [97]]) (mkRRset [[98]; [97]] A CIN 60 [DA 9; DA 9]).
Proof.
  intros c. split; [|split; [reflexivity|destruct c as [[|] [|] [|]]; vm_compute; reflexivity]].
  exists [[98]; [97]], [be 4 9]. split; [left; split; reflexivity|]. split; [apply one_record; exists 1%nat; reflexivity|reflexivity].
Qed.

(** ** Examples: the hypotheses can be met *)
Example C92_ex : let r := signed_by 2 60 [[98]; [97]] in let s := mkRRset [[98]; [97]] A CIN 60 [DA 9] in
  search_contract linear_search /\ byte_list (dk_pk (ex_key ED25519 [1])) /\ Forall (rdata_typed ex_cfg) (set_records s) /\ Forall (rdata_writable ex_cfg) (set_records s) /\
  as_signed r s /\ NoDup (map (rdata_to_bytes ex_cfg) (set_records s)) /\ rfc_signed ex_cfg r s (rs_sig r) /\
  rrsig_verify ex_cfg toy linear_search r (ex_key ED25519 [1]) s = Ok true.
Proof.
  cbv zeta. split; [exact linear_search_ok|]. split; [repeat constructor|]. split; [repeat constructor|]. split; [repeat constructor|].
  split; [repeat split; repeat constructor|]. split; [cbn [map set_records]; constructor; [intros []|constructor]|]. split; [|vm_compute; reflexivity].
  exists [[98]; [97]], [be 4 9]. split; [left; split; reflexivity|]. split; [apply one_record; exists 0%nat; reflexivity|reflexivity].
Qed.
(** A validator for which digests have one length, signatures are opened as they are, and keys are points. *)
Definition sized : prims :=
  mkPrims (fun _ => [1]) (fun _ => [1]) (fun _ => [1]) (fun _ => [1]) (fun _ => [1])
    (rsa_sign toy) (ring_rsa_sign toy) (dsa_sign toy) (ecdsa_sign toy) (ed25519_sign toy) (ed448_sign toy)
    (rsa_verify toy) (dsa_verify toy)
    (fun cv k m s => match k with 4 :: xy => (length xy =? match cv with P256 => 64 | P384 => 96 end)%nat && same m s | _ => false end)
    (ed25519_verify toy) (ed448_verify toy).
Example C92_ex_rsa : let pk := [1; 3; 0; 187] in byte_list pk /\ rsa_public pk 3 187 /\ compares_unprefixed sized 3 187 (fun s => Some s) /\
  (forall a, one_length (rsa_hash_of sized a)) /\ wants_point sized /\ wants_der sized /\
  rfc6605_key P256 (repeat 4 64) /\ ecdsa_verify sized P256 (4 :: repeat 4 64) [7] [7] = true /\ rfc2536_signature (0 :: repeat 1 40).
Proof.
  cbv zeta. split; [repeat constructor|]. split; [exists [3], [0; 187]; split; [reflexivity|]; split; [reflexivity|]; left; split; [cbn; lia|reflexivity]|].
  split; [intros d sg H; cbn in H; injection H as H; unfold same in H; destruct (list_eq_dec N.eq_dec d sg) as [->|]; [reflexivity|discriminate H]|].
  split; [intros [] m m'; reflexivity|]. split.
  - intros cv pk m sig H. cbn [sized ecdsa_verify] in H. destruct pk as [|[|p] xy]; try discriminate H. destruct p as [p|p|]; try discriminate H. destruct p as [p|p|]; try discriminate H. destruct p; try discriminate H.
    apply andb_prop in H. destruct H as (H & _). apply Nat.eqb_eq in H. exists xy. auto.
  - split; [exact (proj1 C39_ex_dsa)|]. split; [reflexivity|]. split; [vm_compute; reflexivity|]. exists 0, (repeat 1 40). split; [reflexivity|]. split; [discriminate|reflexivity].
Qed.
Print Assumptions C92_unique.
Print Assumptions C92_octets_partial.
Print Assumptions C92_edwards_partial.
Print Assumptions C92_made_partial.
Print Assumptions C92_rsa_refuted.
Print Assumptions C92_ecdsa_refuted.
Print Assumptions C92_dsa_refuted.
Print Assumptions C92_wildcard_refuted.
Print Assumptions C92_ttl_refuted.
Print Assumptions C92_case_refuted.
Print Assumptions C92_twice_refuted.
