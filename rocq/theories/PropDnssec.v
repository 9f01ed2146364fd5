(** * Properties C38 - C40, C48, C52 - C55: record sets, signatures, key tags, DS records *)
From Coq Require Import Sorting.Permutation Sorting.Sorted Lia ZifyBool ZifyNat ZifyN.
From Verif Require Import Base Utf8 Buffer Fqdn Types RDataBasic Bitmap Svcb RDataSec RData Packet BaseFacts BufferFacts NameSpec FqdnFacts
  CodeSpec RDataSpec RDataReads RDataFacts RecordSpec Dnssec DnssecSpec DnssecFacts PropName PropRecord.
Ltac Zify.zify_post_hook ::= Z.div_mod_to_equations.

(** ** A search that meets the contract, and primitives to try things with *)
Fixpoint linear_search (l : list bytes) (x : bytes) : nat + nat :=
  match l with
  | [] => inr 0%nat
  | y :: l' => match bytes_cmp y x with
               | Eq => inl 0%nat
               | Gt => inr 0%nat
               | Lt => match linear_search l' x with inl i => inl (S i) | inr i => inr (S i) end
               end
  end.
Lemma linear_search_ok : search_contract linear_search.
Proof.
  intros l x S. induction S as [|y l S IH F]; cbn [linear_search]; [cbn; split; [lia|split; constructor]|].
  destruct (bytes_cmp y x) eqn:E.
  - apply cmp_eq in E. subst y. reflexivity.
  - apply cmp_lt in E. destruct (linear_search l x) as [i|i]; [exact IH|]. destruct IH as (L & A & B). cbn [length firstn skipn]. split; [lia|]. split; [constructor; assumption|exact B].
  - apply cmp_gt in E. cbn [firstn skipn]. split; [lia|]. split; [constructor|]. constructor; [exact E|].
    eapply Forall_impl; [|exact F]. intros z [<-|H]; [exact E|eapply lt_trans; eassumption].
Qed.
Definition same (a b : bytes) : bool := if list_eq_dec N.eq_dec a b then true else false.
Definition toy : prims :=
  mkPrims (fun m => m) (fun m => m) (fun m => m) (fun m => m) (fun m => m)
    (fun _ d => Some d) (fun h _ _ m => RsaSigned (digest_info h ++ m)) (fun _ _ => Some (7, 9)) (fun _ _ _ m => Some m) (fun _ m => Some m) (fun _ m => Some m)
    (fun _ _ d s => Some (same d s)) (fun _ _ _ _ _ s => match s with 48 :: _ => Some true | _ => None end)
    (fun _ _ m s => same m s) (fun _ m s => same m s) (fun _ s m => Some (same m s)).
Definition ex_set : rrset := mkRRset ex_www A CIN 3600 [DA 3; DA 1; DA 2].
Definition ex_key (a : salg) (pk : bytes) : dnskey := mkDnskey true false 3 a pk.
Definition ex_rsa_pk : bytes := [1; 3; 0; 187].
Definition day : Z := (86400 * second)%Z.
Lemma ex_set_typed c : Forall (rdata_typed c) (set_records ex_set) /\ Forall (rdata_writable c) (set_records ex_set).
Proof. split; repeat apply Forall_cons; try apply Forall_nil; try exact I; (split; [destruct c as [[|] [|] [|]]|]; reflexivity). Qed.

(** ** C38 *)
Theorem C38_canonical : forall (c : cfg) (bs : bsearch) (s : rrset), search_contract bs ->
  Forall (rdata_typed c) (set_records s) -> Forall (rdata_writable c) (set_records s) ->
  exists ds, canonical_data c s ds /\ rrset_to_bytes c bs s = Ok (flat_map (full_record s) ds).
Proof. exact rrset_bytes_ok. Qed.
Theorem C38_order_independent : forall (c : cfg) (bs bs' : bsearch) (s : rrset) (l : list rdata), search_contract bs -> search_contract bs' ->
  Forall (rdata_typed c) (set_records s) -> Forall (rdata_writable c) (set_records s) -> Permutation (set_records s) l ->
  rrset_to_bytes c bs' (with_records s l) = rrset_to_bytes c bs s.
Proof. exact rrset_perm. Qed.
Theorem C38_reorder : forall (c : cfg) (s : rrset), Forall (rdata_typed c) (set_records s) -> Forall (rdata_writable c) (set_records s) ->
  exists l written, canonical_reorder c s = Ok (with_records s l) /\ Permutation l (set_records s) /\
    Forall2 (fun d b => rdata_to_bytes c d = Ok b) l written /\ in_order written.
Proof. exact reorder_ok. Qed.
Theorem C38_reorder_bytes : forall (c : cfg) (bs : bsearch) (s s' : rrset), search_contract bs ->
  Forall (rdata_typed c) (set_records s) -> Forall (rdata_writable c) (set_records s) -> canonical_reorder c s = Ok s' ->
  rrset_to_bytes c bs s' = rrset_to_bytes c bs s.
Proof. exact reorder_bytes. Qed.
Theorem C38_byte_size : forall (c : cfg) (bs : bsearch) (s : rrset) (out : bytes), search_contract bs -> Forall (rdata_typed c) (set_records s) ->
  rrset_to_bytes c bs s = Ok out ->
  exists n, rrset_byte_size c s = Ok n /\
    Z.of_nat n = (Z.of_nat (length out) + fold_right (fun d k => size_error d + k) 0 (set_records s))%Z.
Proof. exact rrset_size. Qed.
Example C38_ex : search_contract linear_search /\ Forall (rdata_typed ex_cfg) (set_records ex_set) /\ Forall (rdata_writable ex_cfg) (set_records ex_set) /\
  canonical_data ex_cfg ex_set [[0; 0; 0; 1]; [0; 0; 0; 2]; [0; 0; 0; 3]] /\
  canonical_reorder ex_cfg ex_set = Ok (with_records ex_set [DA 1; DA 2; DA 3]) /\ Permutation (set_records ex_set) [DA 1; DA 3; DA 2].
Proof.
  split; [exact linear_search_ok|]. split; [apply ex_set_typed|]. split; [apply ex_set_typed|]. split; [|split; [vm_compute; reflexivity|constructor; constructor]].
  exists [[0; 0; 0; 3]; [0; 0; 0; 1]; [0; 0; 0; 2]]. split; [repeat constructor|]. split.
  - apply perm_trans with [[0; 0; 0; 1]; [0; 0; 0; 3]; [0; 0; 0; 2]]; [constructor; constructor|constructor].
  - repeat first [apply SSorted_nil|apply SSorted_cons|apply Forall_nil|apply Forall_cons]; right; apply cmp_lt; reflexivity.
Qed.
Print Assumptions C38_canonical.
Print Assumptions C38_order_independent.
Print Assumptions C38_reorder.
Print Assumptions C38_reorder_bytes.
Print Assumptions C38_byte_size.

(** ** C39: false for RSA/SHA-256, RSA/SHA-512 and DSA *)

(** ring signs the digest behind its DigestInfo header; the crate rsa is asked to compare without it. *)
Theorem C39_rsa_sha2_refuted : forall (c : cfg) (x : prims) (bs bs' : bsearch) seed (k : dnskey) (s : rrset) (inc exp : time) key (r : rrsig) e n opens,
  search_contract bs -> search_contract bs' -> Forall (rdata_typed c) (set_records s) -> Forall (rdata_writable c) (set_records s) ->
  byte_list (dk_pk k) -> rsa_public (dk_pk k) e n -> compares_unprefixed x e n opens ->
  (dk_alg k = RSA_SHA256 /\ signs_prefixed x RsaSha256 key opens \/ dk_alg k = RSA_SHA512 /\ signs_prefixed x RsaSha512 key opens) ->
  rrsig_from_dnskey c x bs seed k s inc exp key = Ok r -> rrsig_verify c x bs' r k s <> Ok true.
Proof. exact rsa_sha2_never. Qed.
Example C39_ex_rsa_sha2 : let k := ex_key RSA_SHA256 ex_rsa_pk in
  byte_list (dk_pk k) /\ rsa_public (dk_pk k) 3 187 /\ compares_unprefixed toy 3 187 (fun s => Some s) /\ signs_prefixed toy RsaSha256 [] (fun s => Some s) /\
  exists r, rrsig_from_dnskey ex_cfg toy linear_search [] k ex_set day (2 * day)%Z [] = Ok r.
Proof.
  cbv zeta. split; [repeat constructor|]. split.
  - exists [3], [0; 187]. split; [reflexivity|]. split; [reflexivity|]. left. split; [cbn; lia|reflexivity].
  - split; [|split].
    + intros d sg H. unfold toy in H. cbn [rsa_verify] in H. unfold same in H. destruct (list_eq_dec N.eq_dec d sg) as [->|]; [reflexivity|discriminate].
    + intros seed m sg H. unfold toy in H. cbn [ring_rsa_sign] in H. injection H as <-. reflexivity.
    + eexists. vm_compute. reflexivity.
Qed.
(** DSA signatures are written as r followed by s and read as DER. *)
Theorem C39_dsa_refuted : forall (c : cfg) (x : prims) (bs bs' : bsearch) seed (k : dnskey) (s : rrset) (inc exp : time) key (r : rrsig) (b : bool),
  search_contract bs -> search_contract bs' -> Forall (rdata_typed c) (set_records s) -> Forall (rdata_writable c) (set_records s) ->
  dk_alg k = DSA_SHA1 -> wants_der x -> rrsig_from_dnskey c x bs seed k s inc exp key = Ok r -> nth_error (rs_sig r) 0 <> Some 48 ->
  rrsig_verify c x bs' r k s <> Ok b.
Proof. exact dsa_never. Qed.
Example C39_ex_dsa : wants_der toy /\ exists r, rrsig_from_dnskey ex_cfg toy linear_search [] (ex_key DSA_SHA1 []) ex_set day (2 * day)%Z [] = Ok r /\ rs_sig r = [7; 9].
Proof.
  split; [intros p q g y m [|z sg] b H; [discriminate|]; cbn [dsa_verify toy] in H|eexists; split; vm_compute; reflexivity].
  destruct (N.eq_dec z 48) as [->|NE]; [eauto|]. exfalso. destruct z as [|[z|z|]]; try discriminate.
  repeat (destruct z as [z|z|]; try discriminate). apply NE. reflexivity.
Qed.
(** The three code points without an algorithm never sign and never verify. *)
Theorem C39_unsupported_refuted : forall (c : cfg) (x : prims) (bs : bsearch) seed (k : dnskey) (s : rrset) (inc exp : time) key (r : rrsig),
  In (dk_alg k) [Indirect; PrivateDns; PrivateOid] ->
  rrsig_from_dnskey c x bs seed k s inc exp key <> Ok r /\ forall y b, rs_alg y = dk_alg k -> rrsig_verify c x bs y k s = Ok b -> b = false.
Proof. exact unsupported. Qed.
(** RSA/MD5, RSA/SHA-1, both ECDSA curves, Ed25519 and Ed448. *)
Theorem C39_signed_verifies_partial : forall (c : cfg) (x : prims) (bs bs' : bsearch) seed (k : dnskey) (s : rrset) (inc exp : time) key (r : rrsig),
  search_contract bs -> search_contract bs' -> Forall (rdata_typed c) (set_records s) -> Forall (rdata_writable c) (set_records s) ->
  byte_list (dk_pk k) -> key_pair x key (dk_pk k) (dk_alg k) -> rrsig_from_dnskey c x bs seed k s inc exp key = Ok r ->
  rrsig_verify c x bs' r k s = Ok true.
Proof. exact signed_verifies. Qed.
(** What is signed, for every algorithm. *)
Theorem C39_signed_octets : forall (c : cfg) (x : prims) (bs : bsearch) seed (k : dnskey) (s : rrset) (inc exp : time) key (r : rrsig), search_contract bs ->
  Forall (rdata_typed c) (set_records s) -> Forall (rdata_writable c) (set_records s) ->
  rrsig_from_dnskey c x bs seed k s inc exp key = Ok r ->
  exists ds tag i e, canonical_data c s ds /\ compute_key_tag c k = Ok tag /\ time_field inc = Ok i /\ time_field exp = Ok e /\
    r = mkRrsig (set_type s) (dk_alg k) (fqdn_label_count (set_name s)) (set_ttl s) e i tag (set_name s) (rs_sig r) /\
    sign_data x seed (dk_alg k) (signed_octets r s ds) key = Ok (rs_sig r).
Proof. exact from_dnskey_ok. Qed.
(** Verification succeeds exactly when the primitive accepts these octets with the key. *)
Theorem C39_verify_iff : forall (c : cfg) (x : prims) (bs : bsearch) (r : rrsig) (k : dnskey) (s : rrset) (ds : list bytes),
  search_contract bs -> byte_list (dk_pk k) -> canonical_data c s ds ->
  rrsig_verify c x bs r k s = Ok true <-> rs_alg r = dk_alg k /\ accepts x (dk_pk k) (signed_octets r s ds) (rs_sig r) (dk_alg k).
Proof. exact verify_iff. Qed.
(** The octets determine every field of the signature but the signature itself, and the set. *)
Theorem C39_octets_determine : forall (r r' : rrsig) (s s' : rrset) (ds ds' : list bytes),
  sig_typed r -> sig_typed r' -> set_typed s -> set_typed s' -> Forall short16 ds -> Forall short16 ds' ->
  signed_octets r s ds = signed_octets r' s' ds' ->
  (rs_type r = rs_type r' /\ rs_alg r = rs_alg r' /\ rs_labels r = rs_labels r' /\ rs_ttl r = rs_ttl r' /\ rs_exp r = rs_exp r' /\ rs_inc r = rs_inc r' /\
   rs_tag r = rs_tag r' /\ rs_signer r = rs_signer r') /\
  ds = ds' /\ (ds <> [] -> set_name s = set_name s' /\ set_type s = set_type s' /\ rclass_code (set_class s) = rclass_code (set_class s') /\ set_ttl s = set_ttl s').
Proof. exact signed_determines. Qed.
Example C39_ex : let k := ex_key ED25519 [1; 2; 3] in byte_list (dk_pk k) /\ key_pair toy [] (dk_pk k) (dk_alg k) /\
  key_pair toy [] ex_rsa_pk RSA_SHA1 /\ set_typed ex_set /\
  exists r, rrsig_from_dnskey ex_cfg toy linear_search [] k ex_set day (2 * day)%Z [] = Ok r /\ sig_typed r /\ rrsig_verify ex_cfg toy linear_search r k ex_set = Ok true.
Proof.
  cbv zeta. assert (S : forall m, same m m = true) by (intros m; unfold same; destruct (list_eq_dec N.eq_dec m m); [reflexivity|contradiction]).
  assert (FO : fqdn_ok ex_www) by (repeat constructor; cbn; lia).
  split; [repeat constructor|]. split; [apply pair_ed25519; intros m sg H; injection H as <-; apply S|]. split; [|split; [split; [exact FO|split; reflexivity]|]].
  - apply (pair_rsa _ _ _ _ 3 187); [right; left; reflexivity| |intros d sg H; injection H as <-; cbn [toy rsa_verify]; rewrite S; reflexivity].
    exists [3], [0; 187]. split; [reflexivity|]. split; [reflexivity|]. left. split; [cbn; lia|reflexivity].
  - eexists. split; [vm_compute; reflexivity|]. split; [|vm_compute; reflexivity]. split; [exact FO|]. repeat split.
Qed.
Print Assumptions C39_rsa_sha2_refuted.
Print Assumptions C39_dsa_refuted.
Print Assumptions C39_unsupported_refuted.
Print Assumptions C39_signed_verifies_partial.
Print Assumptions C39_signed_octets.
Print Assumptions C39_verify_iff.
Print Assumptions C39_octets_determine.

(** ** C40: false for algorithm 1, whose key tag is defined differently (RFC 4034, B.1) *)
Theorem C40_md5_refuted : forall c : cfg, exists (k : dnskey) (tag : N), dk_alg k = RSA_MD5 /\ byte_list (dk_pk k) /\ U8 (dk_protocol k) /\
  compute_key_tag c k = Ok tag /\ tag <> rfc_key_tag_md5 (dk_pk k).
Proof.
  intros c. exists (ex_key RSA_MD5 [1; 3; 17; 34; 51; 68]). eexists. split; [reflexivity|]. split; [repeat constructor|]. split; [reflexivity|].
  split; [destruct c as [[|] [|] [|]]; vm_compute; reflexivity|vm_compute; discriminate].
Qed.
Theorem C40_key_tag_partial : forall (c : cfg) (k : dnskey), U8 (dk_protocol k) -> byte_list (dk_pk k) -> N.of_nat (length (dk_pk k)) <= 131064 ->
  compute_key_tag c k = Ok (rfc_key_tag (dnskey_rdata k)).
Proof. exact key_tag_ok. Qed.
(** Such keys are the ones a record can carry, and more; there are larger ones that overflow. *)
Theorem C40_long_key_refuted : forall c : cfg, ovf c = true -> exists k, U8 (dk_protocol k) /\ byte_list (dk_pk k) /\ compute_key_tag c k = Panic.
Proof. exact key_tag_panics. Qed.
(** Exactly: keys of any size have their key tag, unless overflow checks are on and the sum needs more than 32 bits. *)
Theorem C40_exact_partial : forall (c : cfg) (k : dnskey), U8 (dk_protocol k) -> byte_list (dk_pk k) ->
  compute_key_tag c k = let ac := weighted_sum true (dnskey_rdata k) in
    if ovf c && (4294967296 <=? ac + ac / 65536 mod 65536) then Panic else Ok (rfc_key_tag (dnskey_rdata k)).
Proof. exact key_tag_exact. Qed.
(** So whatever the library makes from a key, of any size and in any build, carries this key tag. *)
Theorem C40_made_partial : forall (c : cfg) (x : prims) (k : dnskey), U8 (dk_protocol k) -> byte_list (dk_pk k) ->
  (forall (owner : fqdn) (t : digest_type) (d : ds), ds_from_dnskey c x owner k t = Ok d -> ds_tag d = rfc_key_tag (dnskey_rdata k)) /\
  (forall (bs : bsearch) seed (s : rrset) (inc exp : time) key (r : rrsig), rrsig_from_dnskey c x bs seed k s inc exp key = Ok r -> rs_tag r = rfc_key_tag (dnskey_rdata k)).
Proof.
  intros c x k U B. assert (T : forall n, compute_key_tag c k = Ok n -> n = rfc_key_tag (dnskey_rdata k)).
  { intros n E. rewrite key_tag_exact in E by assumption. cbv zeta in E. destruct (_ && _); [discriminate|]. apply Ok_inj in E. symmetry. exact E. }
  split.
  - intros owner t d E. unfold ds_from_dnskey in E. apply rbind_ok in E. destruct E as (n & E & F). apply Ok_inj in F. subst d. apply T, E.
  - intros bs seed s inc exp key r E. unfold rrsig_from_dnskey in E. do 3 (apply rbind_ok in E; destruct E as (? & ? & E)).
    unfold calculate_signature in E. do 2 (apply rbind_ok in E; destruct E as (? & ? & E)). apply Ok_inj in E. subst r. cbn [rs_tag]. apply T. assumption.
Qed.
Theorem C40_rdata : forall k : dnskey, dnskey_to_bytes k = dnskey_rdata k.
Proof. exact dnskey_rdata_eq. Qed.
(** The example key of RFC 4034, 5.4, has key tag 60485. *)
Definition rfc_5_4_key : dnskey := mkDnskey true false 3 RSA_SHA1
  [1;3;158;138;36;116;24;227;24;144;59;33;90;132;138;207;213;243;127;2;107;212;6;45;178;
   108;119;76;105;9;104;213;213;109;248;191;218;145;230;243;109;154;39;152;136;244;19;51;
   53;124;94;96;41;153;13;16;253;245;102;48;98;165;18;118;51;38;152;10;97;93;219;241;122;
   5;221;252;206;126;95;179;171;204;160;90;49;176;149;116;82;212;82;30;131;135;7;137;6;
   49;21;191;151;246;195;8;204;245;124;220;156;231;254;16;246;237;27;208;204;6;96;3;140;
   80;220;219;15;235;150;60;47;23].
Example C40_ex : U8 (dk_protocol rfc_5_4_key) /\ byte_list (dk_pk rfc_5_4_key) /\ N.of_nat (length (dk_pk rfc_5_4_key)) <= 131064 /\
  compute_key_tag ex_cfg rfc_5_4_key = Ok 60485 /\ rfc_key_tag (dnskey_rdata rfc_5_4_key) = 60485.
Proof. split; [reflexivity|]. split; [repeat constructor|]. split; [vm_compute; discriminate|]. split; vm_compute; reflexivity. Qed.
Print Assumptions C40_md5_refuted.
Print Assumptions C40_key_tag_partial.
Print Assumptions C40_long_key_refuted.
Print Assumptions C40_exact_partial.
Print Assumptions C40_made_partial.
Print Assumptions C40_rdata.

(** ** C48: false: the times are written in milliseconds *)
Theorem C48_value_refuted : forall (t : time) (v : N), (second <= t < 4294967 * second)%Z -> time_field t = Ok v -> v <> rfc_time t.
Proof. exact time_wrong. Qed.
Theorem C48_order_refuted : exists (inc exp : time) (i e : N), (0 <= inc < exp)%Z /\ (exp < 4294967296 * second)%Z /\
  time_field inc = Ok i /\ time_field exp = Ok e /\ e < i.
Proof. exists (4294967 * second)%Z, (4294968 * second)%Z. eexists. eexists. split; [unfold second; lia|]. split; [unfold second; lia|]. repeat split. Qed.
Theorem C48_exact_partial : forall t : time, time_field t =
  if (t <? 0)%Z then Err InvalidDnsSecSignatureTimespan else Ok (Z.to_N (t / 1000000) mod 4294967296).
Proof. intros t. destruct (Z.ltb_spec t 0); [apply time_err|apply time_ok]; lia. Qed.
(** Until 2^32 milliseconds after the epoch (February 1970) the order of the times is that of the fields. *)
Theorem C48_order_partial : forall (inc exp : time) (i e : N), (inc < exp)%Z -> (exp < 4294967296000000)%Z ->
  time_field inc = Ok i -> time_field exp = Ok e -> i <= e /\ ((inc + 1000000 <= exp)%Z -> i < e).
Proof.
  intros inc exp i e L B Ei Ee. rewrite C48_exact_partial in Ei, Ee. destruct (Z.ltb_spec inc 0) as [K|K]; [discriminate Ei|].
  destruct (Z.ltb_spec exp 0) as [J|J]; [lia|]. apply RDataReads.Ok_inj in Ei. apply RDataReads.Ok_inj in Ee.
  assert (Bi : (0 <= inc / 1000000 < 4294967296)%Z) by (split; [apply Z.div_pos; lia|apply Z.div_lt_upper_bound; lia]).
  assert (Be : (0 <= exp / 1000000 < 4294967296)%Z) by (split; [apply Z.div_pos; lia|apply Z.div_lt_upper_bound; lia]).
  rewrite N.mod_small in Ei, Ee by lia. split.
  - pose proof (Z.div_le_mono inc exp 1000000). lia.
  - intros G. pose proof (Z.div_le_mono (inc + 1 * 1000000) exp 1000000) as M. rewrite Z.div_add in M by lia. lia.
Qed.
Example C48_ex_order : (day < 2 * day)%Z /\ (2 * day < 4294967296000000)%Z /\ time_field day = Ok 86400000 /\ time_field (2 * day)%Z = Ok 172800000.
Proof. repeat split. Qed.
(** The fields of a signature that was made are those of its arguments. *)
Theorem C48_fields_partial : forall (c : cfg) (x : prims) (bs : bsearch) seed (k : dnskey) (s : rrset) (inc exp : time) key (r : rrsig),
  rrsig_from_dnskey c x bs seed k s inc exp key = Ok r -> time_field inc = Ok (rs_inc r) /\ time_field exp = Ok (rs_exp r).
Proof.
  intros c x bs seed k s inc exp key r E. unfold rrsig_from_dnskey in E. destruct (time_field exp) as [e| | |] eqn:Ee; try discriminate E.
  destruct (time_field inc) as [i| | |] eqn:Ei; try discriminate E. cbn [rbind] in E. apply rbind_iff in E. destruct E as (t & _ & E).
  unfold calculate_signature in E. apply rbind_iff in E. destruct E as (m & _ & E). apply rbind_iff in E. destruct E as (g & _ & E). injection E as <-. auto.
Qed.
Theorem C48_before_epoch : forall (c : cfg) (x : prims) (bs : bsearch) seed (k : dnskey) (s : rrset) (inc exp : time) key, (inc < 0 \/ exp < 0)%Z ->
  rrsig_from_dnskey c x bs seed k s inc exp key = Err InvalidDnsSecSignatureTimespan.
Proof.
  intros c x bs seed k s inc exp key H. unfold rrsig_from_dnskey. destruct (Z_lt_le_dec exp 0) as [L|L]; [rewrite (time_err exp L); reflexivity|].
  rewrite (time_ok exp L). cbn [rbind]. rewrite (time_err inc) by lia. reflexivity.
Qed.
Example C48_ex : exists r, rrsig_from_dnskey ex_cfg toy linear_search [] (ex_key ED25519 [1]) ex_set day (2 * day)%Z [] = Ok r /\
  rs_inc r = 86400000 /\ rfc_time day = 86400.
Proof. eexists. split; [vm_compute; reflexivity|]. split; vm_compute; reflexivity. Qed.
Print Assumptions C48_value_refuted.
Print Assumptions C48_order_refuted.
Print Assumptions C48_exact_partial.
Print Assumptions C48_order_partial.
Print Assumptions C48_fields_partial.
Print Assumptions C48_before_epoch.

(** ** C52: DS records *)
Theorem C52_ds_partial : forall (c : cfg) (x : prims) (owner : fqdn) (k : dnskey) (d : digest_type),
  U8 (dk_protocol k) -> byte_list (dk_pk k) -> N.of_nat (length (dk_pk k)) <= 131064 ->
  ds_from_dnskey c x owner k d = Ok (mkDs (rfc_key_tag (dnskey_rdata k)) (dk_alg k) d (hash_data x d (fqdn_to_bytes owner ++ dnskey_rdata k))).
Proof. exact ds_ok. Qed.
(** The owner name is not brought into canonical (lower-case) form: names that are equal for DNS give
    different digests. *)
Theorem C52_owner_case_refuted : exists (x : prims) (f g : fqdn) (a b : ds), map (map (fun o => if (65 <=? o) && (o <=? 90) then o + 32 else o)) f = g /\
  ds_from_dnskey ex_cfg x f (ex_key ED25519 [1]) DtSHA256 = Ok a /\ ds_from_dnskey ex_cfg x g (ex_key ED25519 [1]) DtSHA256 = Ok b /\ ds_digest a <> ds_digest b.
Proof. exists toy, [[65]], [[97]]. eexists. eexists. split; [reflexivity|]. split; [vm_compute; reflexivity|]. split; [vm_compute; reflexivity|]. vm_compute. discriminate. Qed.
Example C52_ex : let k := ex_key ED25519 [1; 2; 255] in
  U8 (dk_protocol k) /\ byte_list (dk_pk k) /\ N.of_nat (length (dk_pk k)) <= 131064.
Proof. split; [reflexivity|]. split; [repeat constructor|discriminate]. Qed.
Print Assumptions C52_ds_partial.
Print Assumptions C52_owner_case_refuted.

(** ** C53: hexadecimal digests *)
Theorem C53_hex : forall x : ds, byte_list (ds_digest x) -> hex_denotes (hex_digest x) (ds_digest x) /\
  length (hex_digest x) = (2 * length (ds_digest x))%nat /\ forall d, hex_denotes (hex_digest x) d -> d = ds_digest x.
Proof.
  intros x B. split; [apply hex_ok, B|]. split; [apply hex_length|]. intros d H. symmetry. apply (hex_unique _ _ (hex_ok x B) _ H).
Qed.
Example C53_ex : byte_list [10; 255; 0] /\ hex_digest (mkDs 1 ED25519 DtSHA256 [10; 255; 0]) = [48; 65; 70; 70; 48; 48].
Proof. split; [repeat constructor|vm_compute; reflexivity]. Qed.
Print Assumptions C53_hex.

(** ** C54: a signature stays valid while the TTL of the set counts down, and whatever the case of the owner
    (RFC 4035, 5.3.2).  False: the set is verified with the TTL and the spelling at hand. *)
Theorem C54_ttl_refuted : exists (x : prims) (k : dnskey) (s : rrset) (r : rrsig), key_pair x [] (dk_pk k) (dk_alg k) /\
  rrsig_from_dnskey ex_cfg x linear_search [] k s day (2 * day)%Z [] = Ok r /\ rrsig_verify ex_cfg x linear_search r k s = Ok true /\
  rrsig_verify ex_cfg x linear_search r k (mkRRset (set_name s) (set_type s) (set_class s) (set_ttl s - 1) (set_records s)) = Ok false.
Proof.
  exists toy, (ex_key ED25519 [1]), ex_set. eexists. split; [apply pair_ed25519; intros m sg H; injection H as <-; cbn [toy ed25519_verify]; unfold same; destruct (list_eq_dec N.eq_dec m m); [reflexivity|contradiction]|].
  split; [vm_compute; reflexivity|]. split; vm_compute; reflexivity.
Qed.
Theorem C54_case_refuted : exists (x : prims) (k : dnskey) (s : rrset) (r : rrsig) (f : fqdn),
  set_name s = map (map (fun o => if (65 <=? o) && (o <=? 90) then o + 32 else o)) f /\
  rrsig_from_dnskey ex_cfg x linear_search [] k s day (2 * day)%Z [] = Ok r /\ rrsig_verify ex_cfg x linear_search r k s = Ok true /\
  rrsig_verify ex_cfg x linear_search r k (mkRRset f (set_type s) (set_class s) (set_ttl s) (set_records s)) = Ok false.
Proof.
  exists toy, (ex_key ED25519 [1]), (mkRRset [[97]] A CIN 3600 [DA 3]). eexists. exists [[65]]. split; [reflexivity|].
  split; [vm_compute; reflexivity|]. split; vm_compute; reflexivity.
Qed.
(** A set with a repeated record is the same set (RFC 4034, 6.3; RFC 2181, 5). *)
Theorem C54_duplicate_refuted : exists (x : prims) (k : dnskey) (s : rrset) (r : rrsig) (d : rdata), In d (set_records s) /\
  rrsig_from_dnskey ex_cfg x linear_search [] k s day (2 * day)%Z [] = Ok r /\ rrsig_verify ex_cfg x linear_search r k s = Ok true /\
  rrsig_verify ex_cfg x linear_search r k (with_records s (d :: set_records s)) = Ok false.
Proof.
  exists toy, (ex_key ED25519 [1]), ex_set. eexists. exists (DA 3). split; [left; reflexivity|].
  split; [vm_compute; reflexivity|]. split; vm_compute; reflexivity.
Qed.
(** In general: any change of owner, type, class or TTL, and any change of the records, changes the octets. *)
Theorem C54_exact_partial : forall (r : rrsig) (s s' : rrset) (ds ds' : list bytes),
  sig_typed r -> set_typed s -> set_typed s' -> Forall short16 ds -> Forall short16 ds' -> ds <> [] ->
  signed_octets r s ds = signed_octets r s' ds' ->
  ds = ds' /\ set_name s = set_name s' /\ set_type s = set_type s' /\ rclass_code (set_class s) = rclass_code (set_class s') /\ set_ttl s = set_ttl s'.
Proof. intros r s s' ds ds' R S S' D D' NE E. destruct (signed_determines r r s s' ds ds' R R S S' D D' E) as (_ & H & K). split; [exact H|]. apply K, NE. Qed.
Example C54_ex : exists r, sig_typed r /\ set_typed ex_set /\ Forall short16 [[0; 0; 0; 1]; [0; 0; 0; 2]; [0; 0; 0; 3]].
Proof.
  destruct C39_ex as (_ & _ & _ & T & r & _ & R & _). exists r. split; [exact R|]. split; [exact T|].
  repeat (apply Forall_cons; [unfold short16; cbn [length]; lia|]). apply Forall_nil.
Qed.
Print Assumptions C54_ttl_refuted.
Print Assumptions C54_case_refuted.
Print Assumptions C54_duplicate_refuted.
Print Assumptions C54_exact_partial.

(** ** C55: the fields of a new signature describe the set (RFC 4034, 3.1).  False for wildcards. *)
Theorem C55_wildcard_refuted : exists (s : rrset) (r : rrsig),
  rrsig_from_dnskey ex_cfg toy linear_search [] (ex_key ED25519 [1]) s day (2 * day)%Z [] = Ok r /\ rs_labels r <> N.of_nat (rfc_labels (set_name s)).
Proof. exists (mkRRset [[42]; [97]] A CIN 3600 [DA 3]). eexists. split; [vm_compute; reflexivity|vm_compute; discriminate]. Qed.
Theorem C55_fields_partial : forall (c : cfg) (x : prims) (bs : bsearch) seed (k : dnskey) (s : rrset) (inc exp : time) key (r : rrsig),
  rrsig_from_dnskey c x bs seed k s inc exp key = Ok r ->
  rs_type r = set_type s /\ rs_alg r = dk_alg k /\ rs_ttl r = set_ttl s /\ rs_signer r = set_name s /\ compute_key_tag c k = Ok (rs_tag r) /\
  ((length (set_name s) <= 255)%nat -> (rs_labels r = N.of_nat (rfc_labels (set_name s)) <-> hd [] (set_name s) <> [42])).
Proof.
  intros c x bs seed k s inc exp key r E. unfold rrsig_from_dnskey in E. destruct (time_field exp) as [e| | |] eqn:Ee; try discriminate E.
  destruct (time_field inc) as [i| | |] eqn:Ei; try discriminate E. cbn [rbind] in E. apply rbind_iff in E. destruct E as (t & Et & E).
  unfold calculate_signature in E. apply rbind_iff in E. destruct E as (m & _ & E). apply rbind_iff in E. destruct E as (g & _ & E). injection E as <-.
  cbn [rs_type rs_alg rs_ttl rs_signer rs_tag rs_labels]. do 5 (split; [auto|]). intros L. unfold fqdn_label_count, len8, u8. rewrite N.mod_small by lia. split.
  { intros E H. destruct (set_name s) as [|l f]; [discriminate H|]. cbn [hd] in H. subst l. cbn [rfc_labels length] in E. lia. }
  intros H.
  assert (R : rfc_labels (set_name s) = length (set_name s)).
  { unfold rfc_labels. destruct (set_name s) as [|[|z [|y l]] f]; try reflexivity; cbn [hd] in H.
    - destruct (N.eq_dec z 42) as [->|NE]; [contradiction H; reflexivity|]. destruct z as [|p]; [reflexivity|].
      repeat (destruct p as [p|p|]; try reflexivity). contradiction NE. reflexivity.
    - destruct z as [|p]; [reflexivity|]. repeat (destruct p as [p|p|]; try reflexivity). }
  rewrite R. reflexivity.
Qed.
Example C55_ex : exists r, rrsig_from_dnskey ex_cfg toy linear_search [] (ex_key ED25519 [1]) ex_set day (2 * day)%Z [] = Ok r /\ rs_labels r = 3.
Proof. eexists. split; vm_compute; reflexivity. Qed.
Print Assumptions C55_wildcard_refuted.
Print Assumptions C55_fields_partial.
