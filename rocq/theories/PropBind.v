(** * C112: a signature is good for one record set and one set of fields. *)
From Coq Require Import ZArith Lia ZifyBool ZifyNat ZifyN Permutation.
From Verif Require Import Base Buffer Fqdn Types RDataBasic RDataSec RData Packet Dnssec BaseFacts BufferFacts FqdnFacts CodeSpec RDataReads RDataSpec RDataFacts RecordSpec ObjectSpec DnssecSpec DnssecFacts
  SignSpec Rsa PropName PropRecord PropDnssec PropSign PropVerdict PropRsa.

(** A set whose records are of its type and read back as written (C23). *)
Definition set_ok (c : cfg) (s : rrset) : Prop :=
  fqdn_ok (set_name s) /\ rclass_code (set_class s) < 65536 /\ set_ttl s < 4294967296 /\
  Forall (fun d => rdata_type d = set_type s /\ rdata_typed c d /\ rdata_fits c d /\ forall b, rdata_to_bytes c d = Ok b -> N.of_nat (length b) <= 65535) (set_records s).
(** The same records in whatever order, with the same owner, type, class and TTL. *)
Definition same_set (s s' : rrset) : Prop :=
  set_name s = set_name s' /\ set_type s = set_type s' /\ rclass_code (set_class s) = rclass_code (set_class s') /\ set_ttl s = set_ttl s' /\
  Permutation (set_records s) (set_records s').
Definition sig_ok (r : rrsig) : Prop :=
  fqdn_ok (rs_signer r) /\ rs_labels r < 256 /\ rs_ttl r < 4294967296 /\ rs_exp r < 4294967296 /\ rs_inc r < 4294967296 /\ rs_tag r < 65536.

Lemma set_canonical c bs s : search_contract bs -> set_ok c s -> exists ds, canonical_data c s ds /\ Forall short16 ds /\ (ds = [] -> set_records s = []) /\
  Permutation (map Ok (set_records s)) (map (fun b => fst (rdata_from c (set_type s) (mkbuf b 0))) ds).
Proof.
  intros C (_ & _ & _ & F).
  assert (G : exists w, Forall2 (fun d b => rdata_to_bytes c d = Ok b) (set_records s) w /\ Forall short16 w /\
    map Ok (set_records s) = map (fun b => fst (rdata_from c (set_type s) (mkbuf b 0))) w).
  { induction F as [|d l (T & Ty & Fi & B) F (w & F2 & Sh & M)]; [exists []; repeat constructor|].
    destruct (C23_rdata_roundtrip_partial c d Ty Fi) as (b & E & R). exists (b :: w). split; [constructor; assumption|].
    split; [constructor; [exact (B b E)|exact Sh]|]. cbn [map]. f_equal; [|exact M].
    specialize (R []). cbn [app length] in R. rewrite <- T, R. reflexivity. }
  destruct G as (w & F2 & Sh & M).
  destruct (sorted_records_ok c bs C (set_records s) [] w) as (ds & _ & O & Pm); [constructor|exact F2|]. cbn [app] in Pm.
  exists ds. split; [exists w; split; [exact F2|split; assumption]|]. split; [eapply Permutation_Forall; [apply Permutation_sym, Pm|exact Sh]|].
  split; [intros ->; apply Permutation_nil in Pm; subst w; inversion F2; reflexivity|].
  rewrite M. apply Permutation_map, Permutation_sym, Pm.
Qed.

Lemma all_bound c bs r r' s s' ds ds' : search_contract bs -> sig_ok r -> sig_ok r' -> set_ok c s -> set_ok c s' -> set_records s <> [] ->
  canonical_data c s ds -> canonical_data c s' ds' -> rs_sig r = rs_sig r' -> signed_octets r s ds = signed_octets r' s' ds' -> r = r' /\ same_set s s'.
Proof.
  intros C R R' S S' NE D D' Es E.
  destruct (set_canonical c bs s C S) as (es & X & Sh & N0 & M), (set_canonical c bs s' C S') as (es' & X' & Sh' & N0' & M').
  rewrite <- (canonical_unique c s es ds X D) in *. rewrite <- (canonical_unique c s' es' ds' X' D') in *.
  destruct S as (S1 & S2 & S3 & _), S' as (S1' & S2' & S3' & _).
  destruct (signed_determines r r' s s' es es') as ((A1 & A2 & A3 & A4 & A5 & A6 & A7 & A8) & Ed & K); try assumption.
  1,2: repeat split; assumption.
  destruct K as (K1 & K2 & K3 & K4); [intros Z; apply NE, N0, Z|].
  split; [destruct r, r'; cbn in *; congruence|]. repeat (split; [assumption|]).
  rewrite <- Ed, <- K2 in M'.
  assert (Pm : Permutation (map (@Ok rdata) (set_records s)) (map Ok (set_records s'))) by (eapply Permutation_trans; [exact M|apply Permutation_sym, M']).
  apply Permutation_map_inv in Pm. destruct Pm as (l & El & Pm). replace (set_records s) with l; [apply Permutation_sym, Pm|].
  clear - El. revert El. generalize (set_records s). induction l as [|d l IH]; intros [|d' l'] E; try discriminate; [reflexivity|].
  injection E as <- E. f_equal. apply IH, E.
Qed.

(** If two signature records with the same signature octets are accepted with one key for two sets, they are the same record and the same
    set; or else the signature scheme itself accepts these octets for the two
    different texts. *)
Theorem C112_bound : forall (c : cfg) (x : prims) (bs : bsearch) (k : dnskey) (r r' : rrsig) (s s' : rrset),
  search_contract bs -> byte_list (dk_pk k) -> sig_ok r -> sig_ok r' -> set_ok c s -> set_ok c s' -> set_records s <> [] ->
  rs_sig r = rs_sig r' -> rrsig_verify c x bs r k s = Ok true -> rrsig_verify c x bs r' k s' = Ok true ->
  (r = r' /\ same_set s s') \/
  (exists ds ds', canonical_data c s ds /\ canonical_data c s' ds' /\ signed_octets r s ds <> signed_octets r' s' ds' /\
     accepts x (dk_pk k) (signed_octets r s ds) (rs_sig r) (dk_alg k) /\ accepts x (dk_pk k) (signed_octets r' s' ds') (rs_sig r) (dk_alg k)).
Proof.
  intros c x bs k r r' s s' C B R R' S S' NE Es V V'.
  destruct (set_canonical c bs s C S) as (ds & D & _), (set_canonical c bs s' C S') as (ds' & D' & _).
  apply (verify_iff c x bs r k s ds C B D) in V. apply (verify_iff c x bs r' k s' ds' C B D') in V'. destruct V as (_ & V), V' as (_ & V').
  destruct (list_eq_dec N.eq_dec (signed_octets r s ds) (signed_octets r' s' ds')) as [E|E].
  - left. apply (all_bound c bs r r' s s' ds ds'); assumption.
  - right. rewrite <- Es in V'. exists ds, ds'. repeat (split; [assumption|]). assumption.
Qed.
Print Assumptions C112_bound.

(** With RSA as RFC 8017 defines it nothing is assumed of the scheme: a signature contains one digest, so what remains is that the hash
    function collides on the two texts. *)
Theorem C112_rsa : forall (c : cfg) (x : prims) takes dec rdec (bs : bsearch) (k : dnskey) (r r' : rrsig) (s s' : rrset) (e n : N),
  search_contract bs -> byte_list (dk_pk k) -> sig_ok r -> sig_ok r' -> set_ok c s -> set_ok c s' -> set_records s <> [] ->
  is_rsa (dk_alg k) -> rsa_public (dk_pk k) e n -> n <> 0 -> takes n e = true -> rs_sig r = rs_sig r' ->
  rrsig_verify c (with_rsa x takes dec rdec) bs r k s = Ok true -> rrsig_verify c (with_rsa x takes dec rdec) bs r' k s' = Ok true ->
  (r = r' /\ same_set s s') \/
  (exists ds ds', canonical_data c s ds /\ canonical_data c s' ds' /\ signed_octets r s ds <> signed_octets r' s' ds' /\
     rsa_hash_of x (dk_alg k) (signed_octets r s ds) = rsa_hash_of x (dk_alg k) (signed_octets r' s' ds')).
Proof.
  intros c x takes dec rdec bs k r r' s s' e n C B R R' S S' NE A P NZ T Es V V'.
  destruct (set_canonical c bs s C S) as (ds & D & _), (set_canonical c bs s' C S') as (ds' & D' & _).
  assert (Ra : rs_alg r = dk_alg k) by (apply (verify_iff c _ bs r k s ds C B D) in V; apply V).
  assert (Ra' : rs_alg r' = dk_alg k) by (apply (verify_iff c _ bs r' k s' ds' C B D') in V'; apply V').
  apply (C94_accepts c x takes dec rdec bs r k s ds e n C B D Ra A P NZ T) in V.
  apply (C94_accepts c x takes dec rdec bs r' k s' ds' e n C B D' Ra' A P NZ T) in V'.
  rewrite <- Es in V'. pose proof (contains_one _ _ _ _ _ V V') as H.
  destruct (list_eq_dec N.eq_dec (signed_octets r s ds) (signed_octets r' s' ds')) as [E|E].
  - left. apply (all_bound c bs r r' s s' ds ds'); assumption.
  - right. exists ds, ds'. repeat (split; [assumption|]). exact H.
Qed.
Print Assumptions C112_rsa.

(** So under a signature nothing can be changed, the validity period for instance: verification says no unless the hash function
    collides on the old and the new text. *)
Corollary C112_changed : forall (c : cfg) (x : prims) takes dec rdec (bs : bsearch) (k : dnskey) (r r' : rrsig) (s s' : rrset) (e n : N),
  search_contract bs -> byte_list (dk_pk k) -> sig_ok r -> sig_ok r' -> set_ok c s -> set_ok c s' -> set_records s <> [] ->
  is_rsa (dk_alg k) -> rsa_public (dk_pk k) e n -> n <> 0 -> takes n e = true -> rs_sig r = rs_sig r' ->
  (forall ds ds', canonical_data c s ds -> canonical_data c s' ds' -> signed_octets r s ds <> signed_octets r' s' ds' ->
     rsa_hash_of x (dk_alg k) (signed_octets r s ds) <> rsa_hash_of x (dk_alg k) (signed_octets r' s' ds')) ->
  rrsig_verify c (with_rsa x takes dec rdec) bs r k s = Ok true -> r <> r' \/ ~ same_set s s' ->
  rrsig_verify c (with_rsa x takes dec rdec) bs r' k s' <> Ok true.
Proof.
  intros c x takes dec rdec bs k r r' s s' e n C B R R' S S' NE A P NZ T Es I V Df V'.
  destruct (C112_rsa c x takes dec rdec bs k r r' s s' e n C B R R' S S' NE A P NZ T Es V V') as [(Er & Ss)|(ds & ds' & D & D' & Ne & H)]; [tauto|].
  exact (I ds ds' D D' Ne H).
Qed.
Print Assumptions C112_changed.

(** A signature of the example set with the RSA key of C94, and the same with a later end or one address changed. *)
Definition bound_sig : rrsig := mkRrsig A RSA_SHA1 3 3600 172800000 86400000 12008 ex_www
  [27; 184; 136; 7; 69; 20; 226; 77; 254; 84; 49; 125; 158; 77; 122; 51; 240; 81; 199; 50; 224; 138; 203; 154; 70; 225; 165; 86; 32; 207; 240].
Definition later_sig : rrsig := mkRrsig (rs_type bound_sig) (rs_alg bound_sig) (rs_labels bound_sig) (rs_ttl bound_sig) (rs_exp bound_sig + 1) (rs_inc bound_sig) (rs_tag bound_sig) (rs_signer bound_sig) (rs_sig bound_sig).
Definition other_set : rrset := mkRRset ex_www A CIN 3600 [DA 3; DA 1; DA 4].
Example C112_ex : sig_ok bound_sig /\ sig_ok later_sig /\ set_ok ex_cfg ex_set /\ set_ok ex_cfg other_set /\ set_records ex_set <> [] /\ rs_sig bound_sig = rs_sig later_sig /\ bound_sig <> later_sig /\
  rrsig_verify ex_cfg ex_rsa linear_search bound_sig (ex_key RSA_SHA1 ex_pk) ex_set = Ok true /\
  rrsig_verify ex_cfg ex_rsa linear_search later_sig (ex_key RSA_SHA1 ex_pk) ex_set = Ok false /\
  rrsig_verify ex_cfg ex_rsa linear_search bound_sig (ex_key RSA_SHA1 ex_pk) other_set = Ok false.
Proof.
  assert (FO : fqdn_ok ex_www) by (repeat constructor; cbn; lia).
  assert (SO : forall a b d, a < 4294967296 -> b < 4294967296 -> d < 4294967296 -> set_ok ex_cfg (mkRRset ex_www A CIN 3600 [DA a; DA b; DA d])).
  { intros a b d Ha Hb Hd. split; [exact FO|]. split; [reflexivity|]. split; [reflexivity|].
    repeat (apply Forall_cons; [split; [reflexivity|]; split; [split; [exact (basic_exists ex_cfg A eq_refl)|assumption]|]; split; [exact I|]; intros w E; injection E as <-; cbn; lia|]). apply Forall_nil. }
  split; [repeat split; try exact FO; reflexivity|]. split; [repeat split; try exact FO; reflexivity|].
  split; [apply SO; reflexivity|]. split; [apply SO; reflexivity|]. split; [discriminate|]. split; [reflexivity|].
  split; [intros F; apply (f_equal rs_exp) in F; cbn [later_sig rs_exp] in F; lia|].
  split; [vm_compute; reflexivity|]. split; vm_compute; reflexivity.
Qed.
