(** * Proof that the record data written has the layout of the RFCs *)
From Coq Require Import Lia ZifyNat ZifyN ZifyBool Sorting.Sorted.
From Verif Require Import Base Buffer Fqdn Header Types RDataBasic Bitmap Svcb RDataSec RData Packet BaseFacts FqdnFacts HeaderSpec HeaderFacts CodeSpec
  RDataSpec RDataReads SvcbFacts RDataFacts RecordSpec RecordFacts
  FieldSpec FieldFacts LayoutSpec.
Ltac Zify.zify_post_hook ::= Z.div_mod_to_equations.

Lemma f_be w v : v < 256 ^ N.of_nat w -> field_octets (Number w v) (be w v).
Proof. intros L. apply f_number; [apply be_length|apply be_bytes|exact (unbe_be w v L)]. Qed.
Lemma f_reg w such v : (such v : Prop) -> v < 256 ^ N.of_nat w -> field_octets (Registered w such) (be w v).
Proof. intros S L. apply (f_registered w such v); [exact S|apply be_length|apply be_bytes|exact (unbe_be w v L)]. Qed.
Lemma f_byte v : v < 256 -> field_octets (Number 1 v) [v].
Proof. intros L. apply f_number; [reflexivity|constructor; [exact L|constructor]|reflexivity]. Qed.
Lemma f_regb such v : (such v : Prop) -> v < 256 -> field_octets (Registered 1 such) [v].
Proof. intros S L. apply (f_registered 1 such v); [exact S|reflexivity|constructor; [exact L|constructor]|reflexivity]. Qed.
Lemma legal_fqdn f : legal_name f -> fqdn_ok f.
Proof. unfold legal_name, fqdn_ok. apply Forall_impl. intros l H. unfold label_ok in *. lia. Qed.
Lemma f_fqdn f : legal_name f -> field_octets (DomainName f) (fqdn_to_bytes f).
Proof.
  intros L. apply f_name. rewrite fqdn_to_bytes_eq, (filter_nonempty_ok _ (legal_fqdn f L)).
  induction L as [|l f Hl _ IH]; [constructor|]. cbn [flat_map]. unfold label_bytes at 1. cbn [app]. rewrite <- app_assoc, len8_id by lia. constructor; assumption.
Qed.
Lemma f_char s : (length s <= 255)%nat -> field_octets (CharString s) (char_string s).
Proof. intros L. unfold char_string. rewrite len8_id by lia. constructor. exact L. Qed.
Lemma f_one f a : field_octets f a -> fields_octets [f] a.
Proof. intros H. rewrite <- (app_nil_r a). constructor; [exact H|constructor]. Qed.
Lemma fs_app fs gs a b : fields_octets fs a -> fields_octets gs b -> fields_octets (fs ++ gs) (a ++ b).
Proof. intros H. revert gs b. induction H as [|f fs x y Hf _ IH]; intros gs b K; [exact K|]. cbn [app]. rewrite <- app_assoc. constructor; [exact Hf|]. apply IH, K. Qed.
Lemma fs_map {X} (f : X -> field) (g : X -> bytes) l : Forall (fun x => field_octets (f x) (g x)) l -> fields_octets (map f l) (flat_map g l).
Proof. induction 1; cbn [map flat_map]; constructor; assumption. Qed.
Lemma fs_flat_map {X} (f : X -> list field) (g : X -> bytes) l : Forall (fun x => fields_octets (f x) (g x)) l -> fields_octets (flat_map f l) (flat_map g l).
Proof. induction 1; cbn [flat_map]; [constructor|]. apply fs_app; assumption. Qed.
Lemma f_pref16 fs b n : n = N.of_nat (length b) -> n < 65536 -> fields_octets fs b -> field_octets (Prefixed 2 fs) (be 2 n ++ b).
Proof. intros -> L H. apply f_prefixed; [exact H|apply be_length|apply be_bytes|apply unbe_be2; exact L]. Qed.
Lemma f_pref8 fs b : (length b <= 255)%nat -> fields_octets fs b -> field_octets (Prefixed 1 fs) (char_string b).
Proof.
  intros L H. unfold char_string. rewrite len8_id by lia. change (N.of_nat (length b) :: b) with ([N.of_nat (length b)] ++ b).
  apply f_prefixed; [exact H|reflexivity|constructor; [lia|constructor]|reflexivity].
Qed.
Lemma f_oct16 b : N.of_nat (length b) < 65536 -> field_octets (Prefixed 2 [Octets b]) (be 2 (len16 (length b)) ++ b).
Proof. intros L. rewrite len16_id by lia. apply f_pref16; [reflexivity|exact L|apply f_one; constructor]. Qed.
Lemma fs_more3 f fs a b r : field_octets f (a ++ b) -> fields_octets fs r -> fields_octets (f :: fs) (a ++ b ++ r).
Proof. intros H K. rewrite app_assoc. constructor; assumption. Qed.
Lemma type_number t n : In (t, n) iana_types <-> rtype_code t = n.
Proof.
  split.
  - unfold iana_types. cbn [In]. intros H. repeat (destruct H as [H|H]; [injection H as <- <-; reflexivity|]). contradiction.
  - intros <-. destruct t; cbn; tauto.
Qed.
Lemma f_types c ts ws : windows_ok ws -> (forall n, marked ws n <-> exists t, In t ts /\ rtype_code t = n) ->
  (windows_minimal ws <-> exists t, In t ts /\ rtype_code t < 256) -> tset_typed c ts -> (exists t n, In t ts /\ In (t, n) iana_types /\ n < 256) ->
  field_octets (TypeBitMaps ts) (flat_map window_octets ws).
Proof.
  intros O M N T (t & n & I & J & L). apply type_number in J. apply f_bitmaps; [exact O|apply N; exists t; split; [exact I|lia]|].
  intros m. rewrite M. split; intros (u & U & V); exists u; split; try exact U; apply type_number; exact V.
Qed.
Lemma last_app_one {X} (l : list X) x d : last (l ++ [x]) d = x.
Proof. induction l as [|y l IH]; [reflexivity|]. cbn [app last]. destruct (l ++ [x]) eqn:E; [destruct l; discriminate|exact IH]. Qed.
Lemma f_afd n k a v : a < 256 ^ N.of_nat (S k) -> a mod 256 <> 0 -> v = flag n 128 + N.of_nat (S k) ->
  field_octets (AddressPart n (S k) a) (v :: be (S k) a).
Proof.
  intros L Z ->. rewrite <- (be_length (S k) a) at 2. constructor. apply (afd_part _ _ _ 0).
  - rewrite be_length. lia.
  - apply be_bytes.
  - cbn [repeat]. rewrite app_nil_r. exact (unbe_be (S k) a L).
  - cbn [be]. rewrite last_app_one. exact Z.
Qed.

Local Opaque be.
Ltac pick := unfold number_in, key_number; cbn; tauto.
Ltac num := first [apply f_byte; (assumption || reflexivity || (unfold U8, flag in *; lia))
                  |apply f_be; (assumption || (unfold U8, U16, U32, U64, U128 in *; cbn; lia))].
Ltac fld := first [apply f_fqdn; assumption|apply f_char; assumption|num|apply f_octets
                  |apply f_oct16; assumption].
Ltac lay := first [apply f_one; fld|apply f_more; [fld|]|apply fs_more3; [fld|]].
Lemma flags_eq (a b : bool) : N.lor (if a then 256 else 0) (if b then 1 else 0) = flag a 256 + flag b 1.
Proof. destruct a, b; reflexivity. Qed.
Lemma dnskey_layout x : U8 (dk_protocol x) -> fields_octets (rfc_fields (DDNSKEY x)) (dnskey_to_bytes x).
Proof.
  intros H. cbn [rfc_fields]. unfold dnskey_to_bytes. rewrite flags_eq. apply f_more; [apply f_be; destruct (dk_zone x), (dk_sep x); cbn; lia|]. lay.
  apply f_more; [|lay]. apply f_regb; destruct (dk_alg x); try (pick); cbn; lia.
Qed.
Lemma ds_layout x : U16 (ds_tag x) -> ds_dt x <> DtSHA512 -> fields_octets (rfc_fields (DDS x)) (ds_to_bytes x).
Proof.
  intros H K. cbn [rfc_fields]. unfold ds_to_bytes. lay. apply f_more; [apply f_regb; destruct (ds_alg x); try pick; cbn; lia|].
  apply f_more; [|lay]. apply f_regb; destruct (ds_dt x); try pick; cbn; try lia.
Qed.
Lemma alpn_length ids : length (flat_map (fun a : bytes => len8 (length a) :: a) ids) = fold_right (fun s n => 1 + length s + n)%nat 0%nat ids.
Proof. induction ids as [|a l IH]; [reflexivity|]. cbn [flat_map fold_right]. rewrite app_length, IH. reflexivity. Qed.
Lemma keys_length ks : length (flat_map (fun k => be 2 (pkey_code k)) ks) = (2 * length ks)%nat.
Proof. induction ks as [|k ks IH]; [reflexivity|]. cbn [flat_map length]. rewrite app_length, be_length, IH. lia. Qed.
Lemma pkey_lt k : pkey_typed k -> pkey_code k < 65536.
Proof. unfold pkey_typed, U16. destruct k; cbn; lia. Qed.
Lemma key_number_ok k : key_number k (pkey_code k).
Proof. unfold key_number. destruct k; cbn; tauto. Qed.
Definition param_layout_ok (p : param) : Prop :=
  match p with
  | PMandatory ks => N.of_nat (length ks) <= 32765
  | PAlpn ids => Forall (fun s : bytes => (length s <= 255)%nat) ids /\ N.of_nat (fold_right (fun s n => 1 + length s + n)%nat 0%nat ids) <= 65531
  | PEch b | PPrivate _ b => N.of_nat (length b) <= 65531
  | _ => True
  end.
Lemma param_layout c p : param_typed p -> param_layout_ok p ->
  exists bs, param_to_bytes c p = Ok bs /\ fields_octets [Registered 2 (param_number p); Prefixed 2 (param_value p)] bs.
Proof.
  intros T F. assert (L : N.of_nat (length (param_value_bytes p)) <= 65531).
  { destruct p; cbn [param_layout_ok param_value_bytes] in *; try (rewrite be_length; lia); try (cbn; lia); try exact F.
    - rewrite keys_length. lia.
    - rewrite alpn_length. apply F. }
  exists (be 2 (pkey_code (param_key p)) ++ be 2 (N.of_nat (length (param_value_bytes p))) ++ param_value_bytes p). split.
  - unfold param_to_bytes. rewrite param_byte_size_eq, len16_id by lia. rewrite usub_ok by lia. cbn [rbind]. do 3 f_equal. f_equal. lia.
  - apply f_more.
    + apply f_reg; [destruct p; reflexivity|apply pkey_lt; destruct p; try exact I; exact T].
    + apply f_one. apply f_pref16; [reflexivity|lia|].
      destruct p; cbn [param_value param_value_bytes param_typed param_layout_ok] in *; try constructor; try (apply f_one; fld).
      * apply fs_map. apply Forall_forall. intros k Hk. apply f_reg; [apply key_number_ok|]. destruct T as [_ T]. rewrite Forall_forall in T. apply pkey_lt, T, Hk.
      * apply fs_map. destruct F as [F _]. eapply Forall_impl; [|exact F]. intros a Ha. apply f_char, Ha.
Qed.
Lemma layout_ok_bytes c d : rdata_typed c d -> layout_ok d -> exists bs, rdata_to_bytes c d = Ok bs /\ fields_octets (rfc_fields d) bs.
Proof.
  intros [EX T] F. destruct d; cbn [rdata_to_bytes layout_ok] in *; try (eexists; split; [reflexivity|]).
  - cbn [rfc_fields]. unfold a_to_bytes. lay.
  - cbn [rfc_fields]. lay.
  - cbn [rfc_fields]. lay.
  - cbn [rfc_fields]. unfold soa_to_bytes, soa_fixed_bytes. destruct F, T as (?&?&?&?&?). repeat lay.
  - cbn [rfc_fields]. lay.
  - cbn [rfc_fields]. unfold wks_to_bytes. destruct T. repeat lay.
  - cbn [rfc_fields]. lay.
  - cbn [rfc_fields]. unfold hinfo_to_bytes. destruct F. repeat lay.
  - cbn [rfc_fields]. unfold minfo_to_bytes. destruct F. repeat lay.
  - cbn [rfc_fields]. unfold mx_to_bytes. repeat lay.
  - cbn [rfc_fields]. unfold txt_to_bytes. rewrite fold_app_flat. cbn [app]. apply fs_map. eapply Forall_impl; [|exact F]. intros s. apply f_char.
  - cbn [rfc_fields]. unfold aaaa_to_bytes. lay.
  - cbn [rfc_fields]. unfold loc_to_bytes. destruct T as ((?&?&?&?)&?&?&?). repeat lay.
  - cbn [rfc_fields]. unfold srv_to_bytes, srv_fixed_bytes. destruct T as (?&?&?). rewrite <- !app_assoc. repeat lay.
  - cbn [rfc_fields]. unfold naptr_to_bytes, naptr_fixed_bytes. destruct T as (?&?&?), F as (?&?&?&?). rewrite <- !app_assoc. do 2 lay.
    apply f_more; [apply f_pref8; [rewrite map_length; assumption|]|repeat lay].
    induction (na_flags x) as [|f l IH]; cbn [map]; [constructor|]. change (nflag_code f :: map nflag_code l) with ([nflag_code f] ++ map nflag_code l).
    cbn [length] in *. constructor; [apply f_regb; destruct f; try pick; cbn; lia|apply IH; lia].
  - cbn [rfc_fields]. unfold opt_to_bytes. apply fs_flat_map. apply Forall_forall. intros e He. destruct T as [_ T]. rewrite Forall_forall in T, F.
    specialize (T e He). specialize (F e He). cbn beta in *. unfold opt_entry_bytes. lay. apply f_one. apply f_oct16, F.
  - cbn [rfc_fields]. unfold apl_to_bytes. destruct T as [T1 T2]. apply f_more; [apply f_be; destruct (apl_afd x); cbn; lia|]. lay. apply f_one.
    destruct (apl_afd x) as [a|a]; cbn [afd_number afd_width afd_byte_size afd_to_bytes afd_typed app] in *;
      (apply f_afd; [unfold U32, U128 in T2; cbn; lia|exact F|destruct (apl_n x); reflexivity]).
  - apply ds_layout; assumption.
  - cbn [rfc_fields]. unfold sshfp_to_bytes. apply f_more; [apply f_regb; destruct (ssh_alg x); try pick; cbn; try lia; contradiction F; reflexivity|].
    apply f_more; [apply f_regb; destruct (ssh_type x); try pick; cbn; lia|lay].
  - cbn [rfc_fields]. unfold ipseckey_to_bytes. destruct T as [T1 T2], F as [F1 F2]. cbn [app]. change (?a :: ?b :: ?c :: ?r) with ([a] ++ [b] ++ [c] ++ r). lay.
    apply f_more; [apply f_byte; destruct (ip_gw x); cbn; lia|]. apply f_more; [destruct F1 as [E|E]; rewrite E; apply f_regb; try pick; cbn; lia|].
    apply fs_app; [|lay]. destruct (ip_gw x); cbn [gateway_fields gateway_to_bytes gateway_typed] in *; [contradiction| | |]; lay.
  - cbn [rfc_fields]. unfold rrsig_to_bytes. destruct T as (?&?&?&?&?&?). apply f_more; [apply f_reg; [apply type_number; reflexivity|destruct (rs_type x); cbn; lia]|].
    apply f_more; [apply f_regb; destruct (rs_alg x); try pick; cbn; lia|]. repeat lay.
  - destruct F as [F1 F2]. destruct (nsec_bytes c x T) as (ws & E & _ & O & M & N). eexists. split; [exact E|]. cbn [rfc_fields]. lay. apply f_one. eapply f_types; eassumption.
  - apply dnskey_layout; assumption.
  - cbn [rfc_fields]. unfold dhcid_to_bytes. apply f_more; [apply f_reg; destruct (dhcid_code x); try pick; cbn; lia|]. repeat lay.
  - cbn [rfc_fields]. unfold tlsa_to_bytes. apply f_more; [apply f_regb; destruct (tlsa_usage x); try pick; cbn; lia|].
    apply f_more; [apply f_regb; destruct (tlsa_sel x); try pick; cbn; lia|]. apply f_more; [apply f_regb; destruct (tlsa_match x); try pick; cbn; lia|lay].
  - cbn [rfc_fields]. unfold hip_to_bytes. destruct F as (F1&F2&F3&F4). rewrite len8_id, len16_id by lia.
    cbn [app]. change (?a :: ?b :: be 2 ?n ++ ?r) with ([a] ++ [b] ++ be 2 n ++ r). apply f_more; [apply f_byte; lia|].
    apply f_more; [destruct F1 as [E|E]; rewrite E; apply f_regb; try pick; cbn; lia|]. apply f_more; [apply f_be; cbn; lia|].
    do 2 (apply f_more; [apply f_octets|]). destruct (hip_rv x) as [l|]; [|constructor]. apply fs_map. eapply Forall_impl; [|exact F4]. intros f. apply f_fqdn.
  - apply ds_layout; assumption.
  - apply dnskey_layout; assumption.
  - cbn [rfc_fields]. lay.
  - destruct T as (T1 & T2 & T3). destruct (csync_bytes c x T3) as (ws & E & _ & O & M & N). eexists. split; [exact E|]. cbn [rfc_fields]. lay.
    apply f_more; [|apply f_one; eapply f_types; eassumption].
    assert (cs_flags x = flag (csync_soa_minimum (cs_flags x)) 2 + flag (csync_immediate (cs_flags x)) 1) as <-; [|apply f_be; cbn; lia].
    assert (cs_flags x = 0 \/ cs_flags x = 1 \/ cs_flags x = 2 \/ cs_flags x = 3) as [->|[->|[->| ->]]] by lia; reflexivity.
  - destruct T as (T1 & _ & T3), F as [F1 F2]. assert (P : exists bs, params_bytes c (sv_params x) = Ok bs /\
      fields_octets (flat_map (fun p => [Registered 2 (param_number p); Prefixed 2 (param_value p)]) (sv_params x)) bs).
    { revert T3 F2. generalize (sv_params x). induction l as [|p l IH]; intros T F; [exists []; split; [reflexivity|constructor]|].
      apply Forall_cons_iff in T, F. destruct T as [Tp T], F as [Fp F]. destruct (param_layout c p Tp Fp) as (b & Eb & Hb). destruct (IH T F) as (bs & Es & Hs).
      exists (b ++ bs). cbn [params_bytes]. rewrite Eb. cbn [rbind]. rewrite Es. split; [reflexivity|]. cbn [flat_map]. apply fs_app; assumption. }
    destruct P as (ps & E & H). unfold svcb_to_bytes. rewrite E. eexists. split; [reflexivity|]. cbn [rfc_fields app]. do 2 lay. exact H.
  - cbn [rfc_fields]. lay.
  - cbn [rfc_fields]. lay.
  - cbn [rfc_fields]. unfold tkey_to_bytes. destruct T as (?&?&Hm&He), F as (?&?&?). do 3 lay.
    apply f_more; [apply f_reg; destruct (tk_mode x); try pick; cbn; try lia; exact Hm|].
    apply f_more; [apply f_reg; destruct (tk_err x); try pick; cbn; try lia; exact He|]. apply fs_more3; [apply f_oct16; assumption|]. apply f_one, f_oct16; assumption.
  - cbn [rfc_fields]. unfold tsig_to_bytes. destruct T as (?&?&?), F as (?&?&?&?). lay. apply f_more.
    + assert (E : skipn 2 (be 8 (ts_time x)) = be 6 (ts_time x)) by (apply be8_skip). rewrite E. apply f_be. cbn. lia.
    + lay. apply fs_more3; [apply f_oct16; assumption|]. lay. apply f_more; [apply f_reg; destruct (ts_err x); try pick; cbn; lia|]. apply f_one, f_oct16; assumption.
  - cbn [rfc_fields]. unfold uri_to_bytes. destruct T. repeat lay.
  - cbn [rfc_fields]. unfold caa_to_bytes. apply f_more; [apply f_byte; destruct (caa_critical x); cbn; lia|].
    change ([len8 (length (caa_tag x))] ++ caa_tag x ++ caa_value x) with (char_string (caa_tag x) ++ caa_value x). repeat lay.
Qed.

(** ** Messages *)
Lemma header_layout h : header_typed h -> fields_octets (header_fields (view h)) (header_to_bytes h).
Proof.
  intros (I & R & Q & A' & N' & D). unfold header_fields, header_to_bytes, view. cbn [v_id v_qr v_opcode v_aa v_tc v_rd v_ra v_z v_rcode v_qd v_an v_ns v_ar].
  apply f_more; [apply f_be; cbn; lia|].
  assert (E : flags_into_bytes (hflags h) =
    [flag (query_response h) 128 + 8 * opcode_f (hflags h) + flag (authoritative_answer h) 4 + flag (truncation h) 2 + flag (recursion_desired h) 1]
    ++ [flag (recursion_available h) 128 + 16 * z (hflags h) + rcode (hflags h)]).
  { unfold flags_into_bytes, query_response, authoritative_answer, truncation, recursion_desired, recursion_available, flag, opcode_f, qr, aa, tc, rd, ra, z, rcode, get_field.
    destruct (hflags h) as [r]. cbn [raw] in *. cbn [app].
    change (2 ^ 0) with 1. change (2 ^ 1) with 2. change (2 ^ 2) with 4. change (2 ^ 3) with 8. change (2 ^ 4) with 16. change (2 ^ 7) with 128.
    change (2 ^ 8) with 256. change (2 ^ 12) with 4096. change (2 ^ 15) with 32768.
    f_equal; [|f_equal].
    - destruct (N.eqb_spec ((r / 128) mod 2) 0), (N.eqb_spec ((r / 4) mod 2) 0), (N.eqb_spec ((r / 2) mod 2) 0), (N.eqb_spec ((r / 1) mod 2) 0); cbn [negb]; lia.
    - destruct (N.eqb_spec ((r / 32768) mod 2) 0); cbn [negb]; lia. }
  rewrite E, <- app_assoc. clear E.
  assert (B1 : forall a, opcode_f (hflags h) = a -> a < 16) by (intros a <-; unfold opcode_f, get_field; change (2 ^ 4) with 16; apply N.mod_lt; lia).
  assert (B2 : z (hflags h) < 8) by (unfold z, get_field; change (2 ^ 3) with 8; apply N.mod_lt; lia).
  assert (B3 : rcode (hflags h) < 16) by (unfold rcode, get_field; change (2 ^ 4) with 16; apply N.mod_lt; lia).
  specialize (B1 _ eq_refl).
  apply f_more; [apply f_byte; unfold flag; destruct (query_response h), (authoritative_answer h), (truncation h), (recursion_desired h); lia|].
  apply f_more; [apply f_byte; unfold flag; destruct (recursion_available h); lia|].
  repeat first [apply f_one; apply f_be; cbn; lia|apply f_more; [apply f_be; cbn; lia|]].
Qed.
Lemma qtype_number t : In (t, qtype_code t) iana_qtypes /\ qtype_code t < 65536.
Proof. destruct t as [t| | | |]; [destruct t|..]; split; try reflexivity; cbn; tauto. Qed.
Lemma question_layout c q : question_layout_ok q -> fields_octets (question_fields c q) (question_to_bytes c q).
Proof.
  intros L. unfold question_fields, question_to_bytes. lay. apply f_more; [apply f_reg; apply qtype_number|]. apply f_one.
  assert (E : question_class_field c q = qclass_code (q_class q) + flag (mdns c && q_unicast q) 32768).
  { unfold question_class_field, flag. destruct (mdns c), (q_unicast q); cbn [andb]; try lia. apply lor_top. destruct (q_class q); reflexivity. }
  rewrite E. apply f_reg.
  - exists (qclass_code (q_class q)). split; [destruct (q_class q); cbn; tauto|reflexivity].
  - unfold flag. destruct (q_class q), (mdns c && q_unicast q); reflexivity.
Qed.
Lemma record_layout c r : rdata_typed c (rr_data r) -> size_exact (rr_data r) -> record_layout_ok c r ->
  exists bs, rr_to_bytes c r = Ok bs /\ fields_octets (record_fields c r) bs.
Proof.
  intros T S (L & K & TT & F & B). destruct (layout_ok_bytes c _ T F) as (db & E & H). specialize (B db E).
  assert (Z : rdata_byte_size c (rr_data r) = Ok (length db)) by (apply (rdata_size_exact c _ _ T E), S).
  unfold rr_to_bytes, rr_byte_size. rewrite Z, E. cbn [rbind]. eexists. split; [reflexivity|].
  unfold record_fields. lay. apply f_more; [apply f_reg; [apply type_number; reflexivity|destruct (rr_type r); reflexivity]|].
  assert (C : rclass_code (rr_class r) < 32768) by (destruct (rr_class r); cbn; try reflexivity; exact K).
  assert (X : rr_class_field c r = rclass_code (rr_class r) + flag (mdns c && rr_flush r) 32768).
  { unfold rr_class_field, flag. destruct (mdns c), (rr_flush r); cbn [andb]; try lia. apply lor_top, C. }
  rewrite X. apply f_more; [apply f_reg|].
  - exists (rclass_code (rr_class r)). split; [|reflexivity]. unfold class_number. destruct (rr_class r); cbn; tauto.
  - unfold flag. destruct (mdns c && rr_flush r); change (256 ^ N.of_nat 2) with 65536; lia.
  - apply f_more; [apply f_be; cbn; lia|]. apply f_one. rewrite len16_id by lia. apply f_pref16; [reflexivity|exact B|exact H].
Qed.
Lemma records_layout c rs : Forall (fun r => rdata_typed c (rr_data r) /\ size_exact (rr_data r) /\ record_layout_ok c r) rs ->
  exists bs, concat_res (rr_to_bytes c) rs = Ok bs /\ fields_octets (flat_map (record_fields c) rs) bs /\ exists n, sum_res (rr_byte_size c) rs = Ok n.
Proof.
  induction 1 as [|r rs (T & S & L) _ IH]; [exists []; repeat split; [constructor|eexists; reflexivity]|].
  destruct (record_layout c r T S L) as (b & E & H). destruct IH as (bs & Es & Hs & n & En).
  assert (exists k, rr_byte_size c r = Ok k) as [k Ek].
  { unfold rr_to_bytes in E. destruct (rr_byte_size c r) as [k| | |]; try discriminate E. eauto. }
  exists (b ++ bs). cbn [concat_res sum_res flat_map]. rewrite E. cbn [rbind]. rewrite Es. split; [reflexivity|]. split; [apply fs_app; assumption|].
  rewrite Ek. cbn [rbind]. rewrite En. eexists. reflexivity.
Qed.
Lemma message_layout c p : header_typed (p_header p) -> small_sections p -> Forall question_layout_ok (p_questions p) ->
  Forall (fun r => rdata_typed c (rr_data r) /\ size_exact (rr_data r) /\ record_layout_ok c r) (records_of p) ->
  exists bs, packet_to_bytes c p = Ok bs /\ fields_octets (message_fields c p) bs.
Proof.
  intros H (SQ & SA & SN & SD) Q R. unfold records_of in R. rewrite !Forall_app in R. destruct R as (RA' & RN & RD).
  destruct (records_layout c _ RA') as (ba & Ea & Ha & na & Na). destruct (records_layout c _ RN) as (bn & En & Hn & nn & Nn).
  destruct (records_layout c _ RD) as (bd & Ed & Hd & nd & Nd). unfold packet_to_bytes, packet_byte_size. rewrite Na, Nn, Nd, Ea, En, Ed. cbn [rbind].
  eexists. split; [reflexivity|]. unfold message_fields. apply fs_app; [|apply fs_app; [|apply fs_app; [exact Ha|apply fs_app; assumption]]].
  - assert (E : patched_header p = header_to_bytes (p_header (recount p))).
    { unfold patched_header, recount, header_to_bytes. cbn [p_header id hflags ques_count ans_count auth_count add_count]. rewrite !len16_id by lia.
      remember (p_header p) as h eqn:Eh. clear - h. Local Transparent be. cbn [be app flags_into_bytes firstn skipn]. reflexivity. }
    rewrite E. destruct H as (H1 & H2 & _). apply (header_layout (p_header (recount p))). unfold header_typed, recount. cbn [p_header id hflags ques_count ans_count auth_count add_count].
    unfold count. repeat split; lia.
  - apply fs_flat_map. eapply Forall_impl; [|exact Q]. intros q. apply question_layout.
Qed.

(** ** Reading a layout *)
Lemma fs_nil_inv bs : fields_octets [] bs -> bs = [].
Proof. intros H. inversion H. reflexivity. Qed.
Lemma fs_cons_inv f fs bs : fields_octets (f :: fs) bs -> exists a b, bs = a ++ b /\ field_octets f a /\ fields_octets fs b.
Proof. intros H. inversion H as [|f' fs' a b F G]; subst. eauto. Qed.
Lemma number_inv w v bs : field_octets (Number w v) bs -> length bs = w /\ byte_list bs /\ value_of bs = v.
Proof. intros H. inversion H; subst; auto. Qed.
Lemma registered_inv w s bs : field_octets (Registered w s) bs -> length bs = w /\ byte_list bs /\ s (value_of bs).
Proof. intros H. inversion H; subst; auto. Qed.
Lemma octets_inv b bs : field_octets (Octets b) bs -> bs = b.
Proof. intros H. inversion H; subst; auto. Qed.
Lemma address_inv n w a bs : field_octets (AddressPart n w a) bs -> exists part, bs = flag n 128 + N.of_nat (length part) :: part /\ afd_octets w a part.
Proof. intros H. inversion H; subst; eauto. Qed.

Lemma gateway_refuted : forall c : cfg, exists (x : ipseckey) (bs : bytes), ip_gw x = GwNone /\ ip_alg x = AlgReserved /\
  rdata_typed c (DIPSECKEY x) /\ rdata_to_bytes c (DIPSECKEY x) = Ok bs /\ ~ fields_octets (rfc_fields (DIPSECKEY x)) bs.
Proof.
  intros c. exists (mkIpsec 10 AlgReserved GwNone []). eexists. split; [reflexivity|]. split; [reflexivity|].
  split; [split; [destruct c as [[] [] []]; reflexivity|split; [reflexivity|exact I]]|]. split; [reflexivity|].
  intros H. cbn [rfc_fields gateway_fields app ip_prec ip_alg ip_gw ip_pk gateway_number] in H.
  apply fs_cons_inv in H. destruct H as (a1 & r1 & E1 & F1 & H). apply fs_cons_inv in H. destruct H as (a2 & r2 & -> & F2 & H).
  apply fs_cons_inv in H. destruct H as (a3 & r3 & -> & F3 & H). apply fs_cons_inv in H. destruct H as (a4 & r4 & -> & F4 & H).
  apply fs_nil_inv in H. apply octets_inv in F4. subst. apply number_inv in F1, F2. apply registered_inv in F3.
  apply (f_equal (@length N)) in E1. rewrite !app_length in E1. cbn in E1. lia.
Qed.
Lemma apl_refuted : forall c : cfg, exists (x : apl) (bs : bytes), x = mkApl 8 false (AfdV4 167772160) /\
  rdata_typed c (DAPL x) /\ rdata_to_bytes c (DAPL x) = Ok bs /\ ~ fields_octets (rfc_fields (DAPL x)) bs.
Proof.
  intros c. eexists. eexists. split; [reflexivity|].
  split; [split; [destruct c as [[] [] []]; reflexivity|repeat split]|]. split; [reflexivity|].
  intros H. cbn [rfc_fields apl_prefix apl_n apl_afd afd_fam afd_width afd_number] in H.
  apply fs_cons_inv in H. destruct H as (a1 & r1 & E1 & F1 & H). apply fs_cons_inv in H. destruct H as (a2 & r2 & -> & F2 & H).
  apply fs_cons_inv in H. destruct H as (a3 & r3 & -> & F3 & H). apply fs_nil_inv in H. subst. rewrite app_nil_r in E1.
  apply number_inv in F1, F2. destruct F1 as (L1 & _), F2 as (L2 & _). apply address_inv in F3. destruct F3 as (part & -> & A). destruct A as [part k K1 K2 K3 K4].
  destruct a1 as [|x1 [|x2 [|]]]; try discriminate L1. destruct a2 as [|x3 [|]]; try discriminate L2. cbn [app] in E1.
  vm_compute in E1. injection E1 as _ _ _ _ <-. apply K4. reflexivity.
Qed.
