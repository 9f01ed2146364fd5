(** * Record data reads back as written (all types but SVCB). *)
From Verif Require Import Base Utf8 Buffer Fqdn Types RDataBasic Bitmap Svcb RDataSec RData BaseFacts Utf8Facts
  BufferFacts FqdnFacts BitmapFacts CodeSpec CodeFacts RDataSpec.
From Coq Require Import Lia ZifyBool ZifyNat ZifyN.
Ltac Zify.zify_post_hook ::= Z.div_mod_to_equations.

Lemma reads_done {A B} pre suf (p : P A) (f : A -> B) bs a v :
  reads pre suf p bs a -> f a = v -> reads pre suf (bind p (fun x => ret (f x))) bs v.
Proof. intros H <-. apply reads_bind_ret. exact H. Qed.
Lemma reads_val {A} pre suf (p : P A) bs v v' : reads pre suf p bs v' -> v' = v -> reads pre suf p bs v.
Proof. intros H <-. exact H. Qed.
Lemma Ok_inj {A} (a b : A) : Ok a = Ok b -> a = b.
Proof. congruence. Qed.
Lemma reads_nil {A} pre suf (v w : A) : v = w -> reads pre suf (ret v) [] w.
Proof. intros <-. apply reads_ret. Qed.
Lemma reads_u128 pre suf n : U128 n ->
  reads pre suf (bs <- extract_bytes 16 ;; ret (unbe bs)) (be 16 n) n.
Proof.
  intros H. eapply reads_done; [apply reads_bytes; apply be_length|]. apply unbe_be. exact H.
Qed.
Lemma reads_u128_then {A} pre suf (f : N -> P A) n bs v : U128 n ->
  reads (pre ++ be 16 n) suf (f n) bs v ->
  reads pre suf (x <- extract_bytes 16 ;; f (unbe x)) (be 16 n ++ bs) v.
Proof.
  intros H K. eapply reads_bind; [apply reads_bytes; apply be_length|].
  rewrite unbe_be by exact H. exact K.
Qed.
Lemma reads_len8 pre suf s : short s -> reads pre suf (extract_bytes (N.to_nat (len8 (length s)))) s s.
Proof. intros H. apply reads_bytes. unfold short in H. rewrite len8_id by lia. lia. Qed.
Lemma reads_len16 pre suf s : short16 s -> reads pre suf (extract_bytes (N.to_nat (len16 (length s)))) s s.
Proof. intros H. apply reads_bytes. unfold short16 in H. rewrite len16_id by lia. lia. Qed.
Lemma reads_cs pre suf s : short s -> reads pre suf extract_character_string (char_string s) s.
Proof. intros H. apply reads_char_string. unfold short in H. lia. Qed.

Lemma reads_u8_dom {X} pre suf (dom : X -> Prop) code dec e x : faithful dom 256 code dec e -> dom x ->
  reads pre suf (extract_u8_as dec) [code x] x.
Proof. intros (F & _) D. destruct (F x D). apply reads_u8_as; assumption. Qed.
Lemma reads_u16_dom {X} pre suf (dom : X -> Prop) code dec e x : faithful dom 65536 code dec e -> dom x ->
  reads pre suf (extract_u16_as dec) (be 2 (code x)) x.
Proof. intros (F & _) D. destruct (F x D). apply reads_u16_as; assumption. Qed.

Local Opaque reads be.
(** One step of reading a record. *)
Ltac step :=
  first
  [ apply reads_u8; assumption
  | apply reads_u16; assumption
  | apply reads_u32; assumption
  | apply reads_u16; apply len16_lt
  | apply reads_u8; apply len8_lt
  | apply reads_fqdn; assumption
  | apply reads_u128; assumption
  | apply reads_rest
  | apply reads_cs; assumption
  | apply reads_len8; assumption
  | apply reads_len16; assumption
  | apply (reads_u8_dom _ _ any _ _ _ _ alg_faithful I)
  | apply (reads_u8_dom _ _ any _ _ _ _ fptype_faithful I)
  | apply (reads_u8_dom _ _ any _ _ _ _ cert_usage_faithful I)
  | apply (reads_u8_dom _ _ any _ _ _ _ selector_faithful I)
  | apply (reads_u8_dom _ _ any _ _ _ _ matching_faithful I)
  | apply (reads_u8_dom _ _ any _ _ _ _ salg_faithful I)
  | apply (reads_u8_dom _ _ any _ _ _ _ digest_type_faithful I)
  | apply (reads_u16_dom _ _ any _ _ _ _ idtype_faithful I)
  | apply (reads_u16_dom _ _ any _ _ _ _ tserr_faithful I) ].
Ltac steps := repeat first [eapply reads_bind; [solve [step]|] | eapply reads_done; [solve [step]|]].

Lemma reads_soa pre suf x : fqdn_ok (soa_mname x) -> fqdn_ok (soa_rname x) ->
  U32 (soa_serial x) -> U32 (soa_refresh x) -> U32 (soa_retry x) -> U32 (soa_expire x) -> U32 (soa_minimum x) ->
  reads pre suf soa_try_from (soa_to_bytes x) x.
Proof. intros. unfold soa_try_from, soa_to_bytes, soa_fixed_bytes. steps. destruct x; reflexivity. Qed.

Lemma reads_wks pre x : U32 (wks_addr x) -> U8 (wks_proto x) -> reads pre [] wks_try_from (wks_to_bytes x) x.
Proof. intros. unfold wks_try_from, wks_to_bytes. steps. destruct x; reflexivity. Qed.

Lemma reads_hinfo pre suf x : short (hinfo_cpu x) -> short (hinfo_os x) ->
  reads pre suf hinfo_try_from (hinfo_to_bytes x) x.
Proof. intros. unfold hinfo_try_from, hinfo_to_bytes. steps. destruct x; reflexivity. Qed.

Lemma reads_minfo pre suf x : fqdn_ok (minfo_r x) -> fqdn_ok (minfo_e x) ->
  reads pre suf minfo_try_from (minfo_to_bytes x) x.
Proof. intros. unfold minfo_try_from, minfo_to_bytes. steps. destruct x; reflexivity. Qed.

Lemma reads_mx pre suf x : U16 (mx_pref x) -> fqdn_ok (mx_exchange x) ->
  reads pre suf mx_try_from (mx_to_bytes x) x.
Proof. intros. unfold mx_try_from, mx_to_bytes. steps. destruct x; reflexivity. Qed.

Lemma fold_app_flat {X} (f : X -> bytes) l : forall acc,
  fold_left (fun b x => b ++ f x) l acc = acc ++ flat_map f l.
Proof.
  induction l as [|x l IH]; intros acc; cbn [fold_left flat_map]; [symmetry; apply app_nil_r|].
  rewrite IH, app_assoc. reflexivity.
Qed.
Lemma fold_snoc {X} (l : list X) : forall acc, fold_left (fun a x => a ++ [x]) l acc = acc ++ l.
Proof.
  induction l as [|x l IH]; intros acc; cbn [fold_left]; [symmetry; apply app_nil_r|].
  rewrite IH, <- app_assoc. reflexivity.
Qed.

Lemma reads_txt pre l : Forall text l -> Forall short l -> reads pre [] txt_try_from (txt_to_bytes l) l.
Proof.
  intros T S. unfold txt_try_from, txt_to_bytes. rewrite fold_app_flat. cbn [app].
  eapply reads_val; [apply (reads_loop_map txt_step char_string (fun a x => a ++ [x]) l)|apply fold_snoc].
  - intros done x rest pre' ->. apply Forall_app in T. destruct T as [_ T]. apply Forall_app in S. destruct S as [_ S].
    apply Forall_cons_iff in T. apply Forall_cons_iff in S. destruct T as [T _], S as [S _].
    split; [cbn [char_string length]; lia|]. intros suf.
    unfold txt_step. change (char_string x) with ([len8 (length x)] ++ x).
    eapply reads_bind; [step|]. eapply reads_done; [step|]. rewrite utf8_lossy_id by exact T. reflexivity.
Qed.

Lemma reads_loc pre suf x : U8 (loc_version x) -> U8 (loc_size x) -> U8 (loc_horiz x) -> U8 (loc_vert x) ->
  U32 (loc_lat x) -> U32 (loc_long x) -> U32 (loc_alt x) -> reads pre suf loc_try_from (loc_to_bytes x) x.
Proof. intros. unfold loc_try_from, loc_to_bytes. steps. destruct x; reflexivity. Qed.

Lemma reads_srv pre suf x : U16 (srv_prio x) -> U16 (srv_weight x) -> U16 (srv_port x) -> fqdn_ok (srv_target x) ->
  reads pre suf srv_try_from (srv_to_bytes x) x.
Proof.
  intros. unfold srv_try_from, srv_to_bytes, srv_fixed_bytes. rewrite <- !app_assoc. steps.
  destruct x; reflexivity.
Qed.

Lemma nflags_back l : nflags_of (map nflag_code l) = l.
Proof.
  induction l as [|f l IH]; [reflexivity|]. unfold nflags_of in *. cbn [map flat_map].
  rewrite IH. destruct f; reflexivity.
Qed.
Lemma reads_str pre suf s : text s -> short s -> reads pre suf extract_string (char_string s) s.
Proof. intros T S. apply reads_string; [unfold short in S; lia|exact T]. Qed.
Lemma reads_naptr_fixed {A} pre suf x (k : fqdn -> A) nb f v : U16 (na_order x) -> U16 (na_pref x) -> text (na_regexp x) ->
  (length (na_flags x) <= 255)%nat -> short (na_service x) -> short (na_regexp x) ->
  reads (pre ++ naptr_fixed_bytes x) suf extract_fqdn nb f ->
  mkNaptr (na_order x) (na_pref x) (na_flags x) (na_service x) (na_regexp x) f = v ->
  reads pre suf naptr_try_from (naptr_fixed_bytes x ++ nb) v.
Proof.
  intros O Pr T F S R RF <-. unfold naptr_try_from, naptr_fixed_bytes in *. rewrite <- !app_assoc.
  assert (F' : short (map nflag_code (na_flags x))) by (unfold short; rewrite map_length; exact F).
  eapply reads_bind; [step|]. eapply reads_bind; [step|].
  eapply reads_bind; [apply reads_cs; exact F'|]. eapply reads_bind; [step|].
  eapply reads_bind; [apply reads_str; assumption|].
  eapply reads_done; [rewrite <- !app_assoc; exact RF|]. rewrite nflags_back. reflexivity.
Qed.
Lemma reads_naptr pre suf x : U16 (na_order x) -> U16 (na_pref x) -> text (na_regexp x) ->
  (length (na_flags x) <= 255)%nat -> short (na_service x) -> short (na_regexp x) -> fqdn_ok (na_repl x) ->
  reads pre suf naptr_try_from (naptr_to_bytes x) x.
Proof.
  intros. unfold naptr_to_bytes. eapply (reads_naptr_fixed _ _ x (fun x => x)); try eassumption; [step|].
  destruct x; reflexivity.
Qed.

Lemma opt_insert_new k v m : ~ In k (map fst m) -> opt_insert k v m = m ++ [(k, v)].
Proof.
  induction m as [|[k' v'] m IH]; intros H; [reflexivity|]. cbn [opt_insert map fst In] in *.
  destruct (N.eqb_spec k k') as [->|_]; [tauto|]. rewrite IH by tauto. reflexivity.
Qed.
Lemma opt_fold m : forall acc, NoDup (map fst (acc ++ m)) ->
  fold_left (fun a e => opt_insert (fst e) (snd e) a) m acc = acc ++ m.
Proof.
  induction m as [|[k v] m IH]; intros acc H; cbn [fold_left]; [symmetry; apply app_nil_r|].
  cbn [fst snd]. rewrite opt_insert_new.
  - rewrite IH; rewrite <- app_assoc; [reflexivity|exact H].
  - rewrite map_app in H. cbn [map fst] in H. apply NoDup_remove_2 in H.
    intros I. apply H. apply in_or_app. left. exact I.
Qed.
Lemma reads_opt_entry pre suf m e : U16 (fst e) -> short16 (snd e) ->
  reads pre suf (opt_step m) (opt_entry_bytes e) (opt_insert (fst e) (snd e) m).
Proof. intros. unfold opt_step, opt_entry_bytes. steps. reflexivity. Qed.
Lemma reads_opt_gen pre m : Forall (fun e => U16 (fst e)) m -> Forall (fun e => short16 (snd e)) m ->
  reads pre [] opt_try_from (opt_to_bytes m) (fold_left (fun a e => opt_insert (fst e) (snd e) a) m []).
Proof.
  intros K S. apply (reads_loop_map opt_step opt_entry_bytes (fun a e => opt_insert (fst e) (snd e) a)).
  intros done x rest pre' ->. apply Forall_app in K. destruct K as [_ K]. apply Forall_app in S. destruct S as [_ S].
  apply Forall_cons_iff in K. apply Forall_cons_iff in S. destruct K as [K _], S as [S _].
  split; [unfold opt_entry_bytes; rewrite !app_length, be_length; lia|].
  intros suf. apply reads_opt_entry; assumption.
Qed.
Lemma reads_opt pre m : NoDup (map fst m) -> Forall (fun e => U16 (fst e)) m -> Forall (fun e => short16 (snd e)) m ->
  reads pre [] opt_try_from (opt_to_bytes m) m.
Proof.
  intros D K S. eapply reads_ext; [reflexivity| |apply reads_opt_gen; assumption].
  rewrite (opt_fold m [] D). reflexivity.
Qed.

Lemma resize_exact k l : length l = k -> resize k l = l.
Proof.
  intros <-. unfold resize. rewrite firstn_app, Nat.sub_diag, firstn_all. cbn [firstn]. apply app_nil_r.
Qed.
Lemma reads_apl pre suf x : U8 (apl_prefix x) -> afd_typed (apl_afd x) ->
  reads pre suf apl_try_from (apl_to_bytes x) x.
Proof.
  intros Pr T. unfold apl_try_from, apl_to_bytes. destruct x as [p n a]. cbn [apl_prefix apl_n apl_afd] in *.
  destruct a as [v|v]; cbn [afd_family afd_byte_size afd_to_bytes afd_typed] in *.
  - eapply reads_bind; [apply reads_u16; reflexivity|]. eapply reads_bind; [step|].
    eapply reads_bind; [apply reads_u8; destruct n; reflexivity|].
    eapply reads_done; [apply reads_bytes; rewrite be_length; destruct n; reflexivity|].
    rewrite resize_exact by apply be_length. rewrite unbe_be by exact T. destruct n; reflexivity.
  - eapply reads_bind; [apply reads_u16; reflexivity|]. eapply reads_bind; [step|].
    eapply reads_bind; [apply reads_u8; destruct n; reflexivity|].
    eapply reads_done; [apply reads_bytes; rewrite be_length; destruct n; reflexivity|].
    rewrite resize_exact by apply be_length. rewrite unbe_be by exact T. destruct n; reflexivity.
Qed.

Lemma reads_ds pre x : U16 (ds_tag x) -> reads pre [] ds_try_from (ds_to_bytes x) x.
Proof. intros. unfold ds_try_from, ds_to_bytes. steps. destruct x; reflexivity. Qed.

Lemma reads_ipseckey pre x : U8 (ip_prec x) -> gateway_typed (ip_gw x) ->
  match ip_gw x with GwDomain f => fqdn_ok f | _ => True end ->
  reads pre [] ipseckey_try_from (ipseckey_to_bytes x) x.
Proof.
  intros Pr T F. unfold ipseckey_try_from, ipseckey_to_bytes.
  destruct x as [p a g k]. cbn [ip_prec ip_alg ip_gw ip_pk] in *.
  eapply reads_bind; [step|]. eapply reads_bind; [apply reads_u8; destruct g; reflexivity|].
  eapply reads_bind; [step|].
  destruct g; cbn [gateway_type gateway_to_bytes gateway_typed] in *.
  - eapply reads_bind; [eapply reads_done; [apply reads_u8; reflexivity|reflexivity]|]. steps. reflexivity.
  - eapply reads_bind; [eapply reads_done; [step|reflexivity]|]. steps. reflexivity.
  - eapply reads_bind; [eapply reads_done; [apply reads_bytes; apply be_length|reflexivity]|].
    rewrite unbe_be by exact T. steps. reflexivity.
  - eapply reads_bind; [eapply reads_done; [step|reflexivity]|]. steps. reflexivity.
Qed.

Lemma reads_rrsig c pre x : decodable c (rs_type x) -> fqdn_ok (rs_signer x) -> U8 (rs_labels x) -> U32 (rs_ttl x) ->
  U32 (rs_exp x) -> U32 (rs_inc x) -> U16 (rs_tag x) -> reads pre [] (rrsig_try_from c) (rrsig_to_bytes x) x.
Proof.
  intros D. intros. unfold rrsig_try_from, rrsig_to_bytes.
  eapply reads_bind; [apply (reads_u16_dom _ _ _ _ _ _ _ (rtype_faithful c) D)|].
  steps. destruct x; reflexivity.
Qed.

Lemma reads_rbind {A B} pre suf (p : P A) (f : A -> P B) b1 b2 a v :
  reads pre (b2 ++ suf) p b1 a -> reads (pre ++ b1) suf (f a) b2 v -> reads pre suf (bind p f) (b1 ++ b2) v.
Proof. apply reads_bind. Qed.

Lemma reads_nsec c pre x bs : fqdn_ok (ns_next x) -> sorted_by rtype_code (ns_types x) -> tset_fits c (ns_types x) ->
  nsec_to_bytes c x = Ok bs -> reads pre [] (nsec_try_from c) bs x.
Proof.
  intros F S D E. unfold nsec_to_bytes in E. apply rbind_ok in E. destruct E as (n & _ & E).
  apply rbind_ok in E. destruct E as (tb & E1 & E). apply Ok_inj in E. subst bs.
  unfold nsec_try_from. eapply reads_bind; [step|].
  eapply reads_done; [apply reads_types; [exact S| |exact E1]|destruct x; reflexivity].
  eapply Forall_impl; [|exact D]. intros t. apply parseable_decodable.
Qed.

Lemma reads_dnskey pre x : U8 (dk_protocol x) -> reads pre [] dnskey_try_from (dnskey_to_bytes x) x.
Proof.
  intros H. unfold dnskey_try_from, dnskey_to_bytes. destruct x as [z s p a k]. cbn [dk_zone dk_sep dk_protocol dk_alg dk_pk] in *.
  eapply reads_bind; [apply reads_u16; destruct z, s; reflexivity|]. steps.
  destruct z, s; reflexivity.
Qed.

Lemma reads_dhcid pre x : reads pre [] dhcid_try_from (dhcid_to_bytes x) x.
Proof.
  unfold dhcid_try_from, dhcid_to_bytes. eapply reads_bind; [step|].
  eapply reads_bind; [apply reads_u8; reflexivity|]. cbn [N.eqb Pos.eqb negb]. steps. destruct x; reflexivity.
Qed.

Lemma reads_tlsa pre x : reads pre [] tlsa_try_from (tlsa_to_bytes x) x.
Proof. unfold tlsa_try_from, tlsa_to_bytes. steps. destruct x; reflexivity. Qed.

Lemma fqdn_to_bytes_pos f : (0 < length (fqdn_to_bytes f))%nat.
Proof. unfold fqdn_to_bytes. rewrite app_length. cbn [length]. lia. Qed.
Lemma reads_names pre l : Forall fqdn_ok l -> reads pre [] (loop_remaining names_step []) (flat_map fqdn_to_bytes l) l.
Proof.
  intros F. eapply reads_val; [apply (reads_loop_map names_step fqdn_to_bytes (fun a x => a ++ [x]))|apply fold_snoc].
  - intros done x rest pre' ->. split; [apply fqdn_to_bytes_pos|]. intros suf.
    apply Forall_app in F. destruct F as [_ F]. apply Forall_cons_iff in F. destruct F as [F _].
    unfold names_step. steps. reflexivity.
Qed.
Lemma reads_hip pre x : short (hip_hit x) -> short16 (hip_pk x) ->
  match hip_rv x with Some l => l <> [] /\ Forall fqdn_ok l | None => True end ->
  reads pre [] hip_try_from (hip_to_bytes x) x.
Proof.
  intros H K R. unfold hip_try_from, hip_to_bytes. do 5 (eapply reads_bind; [step|]).
  destruct x as [a hit pk rv]. cbn [hip_alg hip_hit hip_pk hip_rv] in *.
  match goal with |- reads ?p _ _ _ _ => generalize p end. clear pre. intros pre.
  Local Transparent reads.
  unfold reads, remaining. cbn [data pos]. destruct rv as [l|].
  - destruct R as [N F]. destruct l as [|f l]; [congruence|].
    replace (length (pre ++ flat_map fqdn_to_bytes (f :: l) ++ []) - length pre =? 0)%nat with false.
    + pose proof (reads_names pre (f :: l) F) as E.
      apply (reads_bind_ret pre [] (loop_remaining names_step []) (fun ns => mkHip a hit pk (Some ns))) in E.
      exact E.
    + symmetry. apply Nat.eqb_neq. rewrite !app_length. cbn [flat_map]. rewrite app_length.
      pose proof (fqdn_to_bytes_pos f). lia.
  - replace (length (pre ++ [] ++ []) - length pre =? 0)%nat with true.
    + cbn [length]. rewrite Nat.add_0_r. reflexivity.
    + symmetry. apply Nat.eqb_eq. rewrite !app_length. cbn [length]. lia.
Qed.

Local Opaque reads.
Lemma reads_csync c pre x bs : U32 (cs_serial x) -> cs_flags x < 4 -> sorted_by rtype_code (cs_types x) ->
  tset_fits c (cs_types x) -> csync_to_bytes c x = Ok bs -> reads pre [] (csync_try_from c) bs x.
Proof.
  intros S F T D E. unfold csync_to_bytes in E. apply rbind_ok in E. destruct E as (tb & E1 & E). apply Ok_inj in E. subst bs.
  unfold csync_try_from. eapply reads_bind; [step|].
  eapply reads_bind; [apply reads_u16_as; [lia|apply csync_faithful; exact F]|].
  eapply reads_done; [apply reads_types; [exact T| |exact E1]|destruct x; reflexivity].
  eapply Forall_impl; [|exact D]. intros t. apply parseable_decodable.
Qed.

Lemma reads_tkey pre suf x : fqdn_ok (tk_alg x) -> U32 (tk_inc x) -> U32 (tk_exp x) ->
  tkmode_documented (tk_mode x) -> tkerr_documented (tk_err x) -> short16 (tk_key x) -> short16 (tk_other x) ->
  reads pre suf tkey_try_from (tkey_to_bytes x) x.
Proof.
  intros F I X M R K O. unfold tkey_try_from, tkey_to_bytes.
  do 3 (eapply reads_bind; [step|]).
  eapply reads_bind; [apply (reads_u16_dom _ _ _ _ _ _ _ tkmode_faithful M)|].
  eapply reads_bind; [apply (reads_u16_dom _ _ _ _ _ _ _ tkerr_faithful R)|].
  steps. destruct x; reflexivity.
Qed.

Lemma unbe_zeros l : unbe ([0; 0] ++ l) = unbe l.
Proof. reflexivity. Qed.
Local Transparent be.
Lemma be8_skip t : skipn 2 (be 8 t) = be 6 t.
Proof.
  cbn [be app skipn]. reflexivity.
Qed.
Local Opaque be.
Lemma reads_tsig pre suf x : fqdn_ok (ts_alg x) -> U48 (ts_time x) -> U16 (ts_fudge x) -> U16 (ts_id x) ->
  short16 (ts_mac x) -> short16 (ts_other x) -> reads pre suf tsig_try_from (tsig_to_bytes x) x.
Proof.
  intros. unfold tsig_try_from, tsig_to_bytes. rewrite be8_skip. eapply reads_bind; [step|].
  eapply reads_bind; [apply reads_bytes; apply be_length|]. steps.
  rewrite unbe_zeros, unbe_be by assumption. destruct x; reflexivity.
Qed.

Lemma reads_uri pre x : U16 (uri_prio x) -> U16 (uri_weight x) -> reads pre [] uri_try_from (uri_to_bytes x) x.
Proof. intros. unfold uri_try_from, uri_to_bytes. steps. destruct x; reflexivity. Qed.

Lemma reads_caa pre x : text (caa_tag x) -> caa_tag x <> [] -> short (caa_tag x) ->
  reads pre [] caa_try_from (caa_to_bytes x) x.
Proof.
  intros T N S. unfold caa_try_from, caa_to_bytes. destruct x as [cr tg v]. cbn [caa_critical caa_tag caa_value] in *.
  eapply reads_bind; [apply reads_u8; destruct cr; reflexivity|]. eapply reads_bind; [step|].
  replace (len8 (length tg) =? 0) with false.
  - steps. rewrite utf8_lossy_id by exact T. destruct cr; reflexivity.
  - symmetry. apply N.eqb_neq. unfold short in S. rewrite len8_id by lia. destruct tg; [congruence|]. cbn [length]. lia.
Qed.
