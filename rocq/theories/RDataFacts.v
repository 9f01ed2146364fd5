(** * Record data: round trip, sizes, serialisation never fails. *)
From Verif Require Import Base Utf8 Buffer Fqdn Types RDataBasic Bitmap Svcb RDataSec RData BaseFacts Utf8Facts
  BufferFacts FqdnFacts BitmapFacts CodeSpec CodeFacts RDataSpec RDataReads SvcbFacts.
From Coq Require Import Lia ZifyBool ZifyNat ZifyN.
Ltac Zify.zify_post_hook ::= Z.div_mod_to_equations.

Lemma reads_pmap {A B} (f : A -> B) pre suf (p : P A) bs a :
  reads pre suf p bs a -> reads pre suf (pmap f p) bs (f a).
Proof. intros H. unfold pmap. apply reads_bind_ret. exact H. Qed.

Lemma nsec_ok c x : sorted_by rtype_code (ns_types x) ->
  exists bs, nsec_to_bytes c x = Ok bs /\ nsec_byte_size c x = Ok (length bs).
Proof.
  intros S. destruct (types_bytes_size c _ S) as (tb & E1 & E2).
  exists (fqdn_to_bytes (ns_next x) ++ tb). unfold nsec_to_bytes, nsec_byte_size. rewrite E2. cbn [rbind].
  rewrite E1. cbn [rbind]. rewrite app_length, fqdn_byte_size_eq. split; reflexivity.
Qed.
Lemma csync_ok c x : sorted_by rtype_code (cs_types x) ->
  exists bs, csync_to_bytes c x = Ok bs /\ csync_byte_size c x = Ok (length bs).
Proof.
  intros S. destruct (types_bytes_size c _ S) as (tb & E1 & E2).
  eexists. unfold csync_to_bytes, csync_byte_size. rewrite E2, E1. cbn [rbind].
  split; [reflexivity|]. rewrite !app_length, !be_length. f_equal.
Qed.

Lemma param_bytes_iff c p : (exists bs, param_to_bytes c p = Ok bs) <-> param_writable c p.
Proof.
  unfold param_to_bytes, param_writable, usub, len16, u16.
  destruct (N.leb_spec 4 (N.of_nat (param_byte_size p) mod 65536)) as [L|L].
  - split; [intros _; right; exact L|intros _; eexists; reflexivity].
  - destruct (ovf c); cbn [rbind].
    + split; [intros [bs E]; discriminate|intros [E|E]; [discriminate|lia]].
    + split; [intros _; left; reflexivity|intros _; eexists; reflexivity].
Qed.
Lemma param_bytes_panic c p : ~ param_writable c p -> param_to_bytes c p = Panic.
Proof.
  intros H. unfold param_to_bytes, param_writable, usub, len16, u16 in *.
  destruct (N.leb_spec 4 (N.of_nat (param_byte_size p) mod 65536)) as [L|L]; [tauto|].
  destruct (ovf c); [reflexivity|tauto].
Qed.
Lemma params_bytes_iff c ps : (exists bs, params_bytes c ps = Ok bs) <-> Forall (param_writable c) ps.
Proof.
  induction ps as [|p ps IH]; cbn [params_bytes].
  - split; [constructor|intros _; eexists; reflexivity].
  - rewrite Forall_cons_iff, <- IH, <- param_bytes_iff. split.
    + intros [bs E]. apply rbind_ok in E. destruct E as (b & E1 & E).
      apply rbind_ok in E. destruct E as (r & E2 & E). split; eexists; eassumption.
    + intros [[b E1] [r E2]]. rewrite E1. cbn [rbind]. rewrite E2. eexists; reflexivity.
Qed.
Lemma param_to_bytes_cases c p : (exists bs, param_to_bytes c p = Ok bs) \/ param_to_bytes c p = Panic.
Proof.
  unfold param_to_bytes, usub. destruct (_ <=? _); [left; eexists; reflexivity|].
  destruct (ovf c); [right; reflexivity|left; eexists; reflexivity].
Qed.
Lemma params_bytes_cases c ps : (exists bs, params_bytes c ps = Ok bs) \/ params_bytes c ps = Panic.
Proof.
  induction ps as [|p ps IH]; cbn [params_bytes]; [left; eexists; reflexivity|].
  destruct (param_to_bytes_cases c p) as [[b E]|E]; rewrite E; cbn [rbind]; [|right; reflexivity].
  destruct IH as [[r E2]|E2]; rewrite E2; cbn [rbind]; [left; eexists; reflexivity|right; reflexivity].
Qed.

Lemma rdata_bytes_iff c d : rdata_typed c d -> (exists bs, rdata_to_bytes c d = Ok bs) <-> rdata_writable c d.
Proof.
  intros [_ T]. destruct d; cbn [rdata_writable rdata_to_bytes];
    try (split; [intros _; exact I|intros _; eexists; reflexivity]).
  - destruct T as [T _]. destruct (nsec_ok c x T) as (bs & E & _).
    split; [intros _; exact I|intros _; exists bs; exact E].
  - destruct T as (_ & _ & T & _). destruct (csync_ok c x T) as (bs & E & _).
    split; [intros _; exact I|intros _; exists bs; exact E].
  - rewrite <- params_bytes_iff. unfold svcb_to_bytes. split.
    + intros [bs E]. apply rbind_ok in E. destruct E as (r & E & _). exists r. exact E.
    + intros [r E]. rewrite E. cbn [rbind]. eexists; reflexivity.
Qed.
Lemma rdata_bytes_panic c d : rdata_typed c d -> ~ rdata_writable c d -> rdata_to_bytes c d = Panic.
Proof.
  intros T W. destruct d; cbn [rdata_writable] in W; try tauto. cbn [rdata_to_bytes]. unfold svcb_to_bytes.
  destruct (params_bytes_cases c (sv_params x)) as [E|E].
  - apply params_bytes_iff in E. tauto.
  - rewrite E. reflexivity.
Qed.
Lemma param_fits_writable c p : param_fits p -> param_writable c p.
Proof. intros F. apply param_bytes_iff. eexists. apply (param_bytes_ok c p F). Qed.
Lemma rdata_fits_writable c d : rdata_fits c d -> rdata_writable c d.
Proof.
  intros F. destruct d; try exact I. destruct F as [_ F]. cbn [rdata_writable].
  eapply Forall_impl; [|exact F]. intros p. apply param_fits_writable.
Qed.

(** ** Round trip *)
Lemma reads_rdata c d bs pre : rdata_typed c d -> rdata_fits c d -> rdata_to_bytes c d = Ok bs ->
  reads pre [] (rdata_from c (rdata_type d)) bs d.
Proof.
  intros [_ T] F E. destruct d; cbn [rdata_type rdata_from rdata_to_bytes rdata_fits] in *;
    try (apply Ok_inj in E; subst bs); apply reads_pmap.
  - apply reads_u32. exact T.
  - apply reads_fqdn. exact F.
  - apply reads_fqdn. exact F.
  - apply reads_soa; tauto.
  - apply reads_rest.
  - apply reads_wks; tauto.
  - apply reads_fqdn. exact F.
  - apply reads_hinfo; tauto.
  - apply reads_minfo; tauto.
  - apply reads_mx; tauto.
  - apply reads_txt; tauto.
  - apply reads_u128. exact T.
  - apply reads_loc; tauto.
  - apply reads_srv; tauto.
  - apply reads_naptr; tauto.
  - apply reads_opt; tauto.
  - apply reads_apl; tauto.
  - apply reads_ds; tauto.
  - destruct F.
  - apply reads_ipseckey; tauto.
  - apply reads_rrsig; tauto.
  - unfold tset_typed in T. eapply reads_nsec; [| | |exact E]; tauto.
  - apply reads_dnskey; tauto.
  - apply reads_dhcid.
  - apply reads_tlsa.
  - apply reads_hip; tauto.
  - apply reads_ds; tauto.
  - apply reads_dnskey; tauto.
  - apply reads_rest.
  - unfold tset_typed in T. eapply reads_csync; [| | | |exact E]; tauto.
  - eapply reads_svcb; [| | | | |exact E]; tauto.
  - apply reads_bytes; exact T.
  - apply reads_bytes; exact T.
  - apply reads_tkey; tauto.
  - apply reads_tsig; tauto.
  - apply reads_uri; tauto.
  - apply reads_caa; tauto.
Qed.

(** ** Sizes *)
Ltac sizes := rewrite ?app_length, ?be_length, ?fqdn_byte_size_eq; cbn [length]; lia.
Lemma txt_size l : txt_byte_size l = length (txt_to_bytes l).
Proof.
  unfold txt_byte_size, txt_to_bytes. rewrite fold_app_flat. cbn [app]. symmetry. apply flat_char_length.
Qed.
Lemma sum_sizes_eq l : sum_sizes l = length (flat_map fqdn_to_bytes l).
Proof.
  induction l as [|f l IH]; [reflexivity|]. cbn [sum_sizes fold_right flat_map].
  unfold sum_sizes in IH. rewrite IH, app_length, fqdn_byte_size_eq. reflexivity.
Qed.
Lemma opt_size m : (opt_byte_size m + 4 * length m = length (opt_to_bytes m) + 2)%nat.
Proof.
  unfold opt_byte_size, opt_to_bytes.
  assert (G : forall (m : list (N * bytes)) n, (fold_left (fun acc (e : N * bytes) => acc + length (snd e)) m n + 4 * length m
                           = n + length (flat_map opt_entry_bytes m))%nat).
  { clear m. induction m as [|e m IH]; intros n; cbn [fold_left flat_map length]; [lia|].
    specialize (IH (n + length (snd e))%nat).
    assert (K : length (opt_entry_bytes e) = (4 + length (snd e))%nat)
      by (unfold opt_entry_bytes; rewrite !app_length, !be_length; reflexivity).
    rewrite app_length, K. lia. }
  specialize (G m 0%nat). unfold opt in *.
  change (fold_left (fun acc (e : N * bytes) => (acc + length (snd e))%nat) m 0%nat) with
         (fold_left (fun acc e => (acc + length (snd e))%nat) m 0%nat) in *. lia.
Qed.
Lemma rrsig_size x : (rrsig_byte_size x + 1 = length (rrsig_to_bytes x))%nat.
Proof. unfold rrsig_byte_size, rrsig_to_bytes, fqdn_len. sizes. Qed.
Lemma caa_size x : (caa_byte_size x + length (caa_tag x) = length (caa_to_bytes x))%nat.
Proof. unfold caa_byte_size, caa_to_bytes. sizes. Qed.
Lemma param_to_bytes_size c p bs : param_to_bytes c p = Ok bs -> length bs = param_byte_size p.
Proof.
  unfold param_to_bytes. intros E. apply rbind_ok in E. destruct E as (l & _ & E). apply Ok_inj in E. subst bs.
  rewrite !app_length, !be_length, param_byte_size_eq. lia.
Qed.
Lemma params_size c ps bs : params_bytes c ps = Ok bs ->
  (fold_left (fun acc p => acc + 4 + param_byte_size p) ps 0 = length bs + 4 * length ps)%nat.
Proof.
  revert bs. assert (G : forall ps bs n, params_bytes c ps = Ok bs ->
    (fold_left (fun acc p => acc + 4 + param_byte_size p) ps n = n + length bs + 4 * length ps)%nat).
  { clear ps. induction ps as [|p ps IH]; intros bs n E; cbn [params_bytes fold_left length] in *.
    - apply Ok_inj in E. subst bs. cbn [length]. lia.
    - apply rbind_ok in E. destruct E as (b & E1 & E). apply rbind_ok in E. destruct E as (r & E2 & E).
      apply Ok_inj in E. subst bs. rewrite (IH r) by exact E2. rewrite app_length, (param_to_bytes_size c p b E1). lia. }
  intros bs E. exact (G ps bs 0%nat E).
Qed.
Lemma svcb_size c x bs : svcb_to_bytes c x = Ok bs -> (svcb_byte_size x = length bs + 4 * length (sv_params x))%nat.
Proof.
  unfold svcb_to_bytes. intros E. apply rbind_ok in E. destruct E as (r & E1 & E). apply Ok_inj in E. subst bs.
  unfold svcb_byte_size. rewrite (params_size c _ r E1). sizes.
Qed.

Lemma rdata_size c d bs : rdata_typed c d -> rdata_to_bytes c d = Ok bs ->
  exists n, rdata_byte_size c d = Ok n /\ (Z.of_nat n = Z.of_nat (length bs) + size_error d)%Z.
Proof.
  intros [_ T] E. destruct d; cbn [rdata_to_bytes rdata_byte_size size_error] in *;
    try (apply Ok_inj in E; subst bs; eexists; split; [reflexivity|]).
  - unfold a_byte_size, a_to_bytes. sizes.
  - unfold name_byte_size, name_to_bytes. sizes.
  - unfold name_byte_size, name_to_bytes. sizes.
  - unfold soa_byte_size, soa_to_bytes, soa_fixed_bytes. sizes.
  - unfold opaque_byte_size, opaque_to_bytes. lia.
  - unfold wks_byte_size, wks_to_bytes. sizes.
  - unfold name_byte_size, name_to_bytes. sizes.
  - unfold hinfo_byte_size, hinfo_to_bytes, char_string. sizes.
  - unfold minfo_byte_size, minfo_to_bytes. sizes.
  - unfold mx_byte_size, mx_to_bytes. sizes.
  - rewrite txt_size. lia.
  - unfold aaaa_byte_size, aaaa_to_bytes. sizes.
  - unfold loc_byte_size, loc_to_bytes. sizes.
  - unfold srv_byte_size, srv_to_bytes, srv_fixed_bytes. sizes.
  - unfold naptr_byte_size, naptr_fixed_size, naptr_to_bytes, naptr_fixed_bytes, char_string.
    rewrite ?app_length, ?be_length, ?fqdn_byte_size_eq; cbn [length]; rewrite map_length; lia.
  - pose proof (opt_size x). lia.
  - unfold apl_byte_size, apl_to_bytes. destruct (apl_afd x); cbn [afd_byte_size afd_to_bytes]; sizes.
  - unfold ds_byte_size, ds_to_bytes. sizes.
  - unfold sshfp_byte_size, sshfp_to_bytes. sizes.
  - unfold ipseckey_byte_size, ipseckey_to_bytes.
    destruct (ip_gw x); cbn [gateway_byte_size gateway_to_bytes]; sizes.
  - pose proof (rrsig_size x). lia.
  - destruct T as [T _]. destruct (nsec_ok c x T) as (b & E1 & E2). exists (length b). split; [exact E2|].
    assert (b = bs) by congruence. subst b. lia.
  - unfold dnskey_byte_size, dnskey_to_bytes. sizes.
  - unfold dhcid_byte_size, dhcid_to_bytes. sizes.
  - unfold tlsa_byte_size, tlsa_to_bytes. sizes.
  - unfold hip_byte_size, hip_to_bytes. destruct (hip_rv x); rewrite ?sum_sizes_eq; sizes.
  - unfold ds_byte_size, ds_to_bytes. sizes.
  - unfold dnskey_byte_size, dnskey_to_bytes. sizes.
  - unfold opaque_byte_size, opaque_to_bytes. lia.
  - destruct T as (_ & _ & T & _). destruct (csync_ok c x T) as (b & E1 & E2). exists (length b). split; [exact E2|].
    assert (b = bs) by congruence. subst b. lia.
  - eexists. split; [reflexivity|]. pose proof (svcb_size c x bs E). lia.
  - unfold eui48_byte_size, eui48_to_bytes. lia.
  - unfold eui64_byte_size, eui64_to_bytes. lia.
  - unfold tkey_byte_size, tkey_to_bytes. sizes.
  - unfold tsig_byte_size, tsig_to_bytes. rewrite be8_skip. sizes.
  - unfold uri_byte_size, uri_to_bytes. sizes.
  - pose proof (caa_size x). lia.
Qed.
Lemma size_error_exact d : size_error d = 0%Z <-> size_exact d.
Proof.
  destruct d; cbn [size_error size_exact]; try tauto; try (split; [lia|intros []]).
  - split; [|intros ->; reflexivity]. destruct (sv_params x); [reflexivity|cbn [length]; lia].
  - split; [|intros ->; reflexivity]. destruct (caa_tag x); [reflexivity|cbn [length]; lia].
Qed.
Lemma rdata_size_exact c d bs : rdata_typed c d -> rdata_to_bytes c d = Ok bs ->
  (rdata_byte_size c d = Ok (length bs) <-> size_exact d).
Proof.
  intros T E. destruct (rdata_size c d bs T E) as (n & E1 & E2). rewrite E1, <- size_error_exact.
  split; intros H; [injection H; lia|f_equal; lia].
Qed.
Lemma rdata_size_total c d : rdata_typed c d -> exists n, rdata_byte_size c d = Ok n.
Proof.
  intros [_ T]. destruct d; cbn [rdata_byte_size]; try (eexists; reflexivity).
  - destruct T as [T _]. destruct (nsec_ok c x T) as (b & _ & E). eexists; exact E.
  - destruct T as (_ & _ & T & _). destruct (csync_ok c x T) as (b & _ & E). eexists; exact E.
Qed.

(** SSHFP never reads back as itself. *)
Lemma sshfp_never c x pre y b' :
  rdata_from c SSHFP (mkbuf (pre ++ sshfp_to_bytes x) (length pre)) = (Ok (DSSHFP y), b') -> y <> x.
Proof.
  intros E ->.
  assert (G : forall n b v b', extract_bytes n b = (Ok v, b') -> length v = n /\ pos b' = (pos b + n)%nat /\
               (pos b' <= length (data b'))%nat /\ data b' = data b).
  { intros n b v b2 H. apply extract_bytes_ok in H. destruct H as (L & -> & ->). cbn [pos data].
    rewrite slice_length by exact L. repeat split; lia. }
  unfold rdata_from, pmap, sshfp_try_from, extract_character_string, extract_u8_as, extract_u8 in E.
  unfold bind, ret, lift in E.
  destruct (extract_bytes 1 _) as [[v1| | |] b1] eqn:E1; try discriminate E.
  destruct (alg_try_from _); try discriminate E.
  destruct (extract_bytes 1 b1) as [[v2| | |] b2] eqn:E2; try discriminate E.
  destruct (fptype_try_from _); try discriminate E.
  destruct (extract_bytes 1 b2) as [[v3| | |] b3] eqn:E3; try discriminate E.
  destruct (extract_bytes _ b3) as [[v4| | |] b4] eqn:E4; try discriminate E.
  injection E as E _. subst x.
  apply G in E1, E2, E3, E4. cbn [data pos] in *.
  destruct E1 as (_ & p1 & _ & d1), E2 as (_ & p2 & _ & d2), E3 as (_ & p3 & _ & d3), E4 as (l4 & p4 & q4 & d4).
  rewrite d4, d3, d2, d1 in q4. unfold sshfp_to_bytes in q4. rewrite !app_length in q4.
  cbn [length ssh_fp] in q4. lia.
Qed.
