(** * C122: a chain of trust of any length, from an anchor down to an answer *)
From Coq Require Import ZArith Lia ZifyBool ZifyNat ZifyN Permutation.
From Verif Require Import Base Buffer Fqdn Types RDataBasic RDataSec RData Packet Dnssec BaseFacts FqdnFacts CodeSpec RDataSpec RDataReads ObjectSpec DnssecSpec DnssecFacts
  VerifySpec PropName PropRecord PropDnssec PropVerify PropTrust PropBind.

(** One step down: a signed set of DS records, one of them, and the key it is meant to vouch for. *)
Record link := mkLink { ln_sig : rrsig; ln_set : rrset; ln_ds : ds; ln_key : dnskey }.
(** Where the chain is before each step, and at its end: a zone and a key. *)
Fixpoint hops (z : fqdn) (k : dnskey) (ls : list link) : list (fqdn * dnskey * link) :=
  match ls with [] => [] | l :: ls' => (z, k, l) :: hops (set_name (ln_set l)) (ln_key l) ls' end.
Fixpoint reached (z : fqdn) (k : dnskey) (ls : list link) : fqdn * dnskey :=
  match ls with [] => (z, k) | l :: ls' => reached (set_name (ln_set l)) (ln_key l) ls' end.

(** What the resolver checks of a set that it takes from zone [z] with key [k]: the library's verdict, and the name. *)
Record answer_checked (c : cfg) (x : prims) (bs : bsearch) (z : fqdn) (k : dnskey) (r : rrsig) (s : rrset) : Prop := mkAnswer {
  sig_fields : sig_ok r; set_fields : set_ok c s; some_record : set_records s <> [];
  own_name : at_or_below (set_name s) z;
  verified : rrsig_verify c x bs r k s = Ok true }.
(** And of a step down: the set is of type DS, and the library makes from the next key the DS record found. *)
Record link_checked (c : cfg) (x : prims) (bs : bsearch) (z : fqdn) (k : dnskey) (l : link) : Prop := mkChecked {
  ds_answer : answer_checked c x bs z k (ln_sig l) (ln_set l);
  ds_type : set_type (ln_set l) = DS;
  ds_there : In (DDS (ln_ds l)) (set_records (ln_set l));
  key_octets : byte_list (dk_pk (ln_key l));
  ds_matches : ds_from_dnskey c x (set_name (ln_set l)) (ln_key l) (ds_dt (ln_ds l)) = Ok (ln_ds l) }.

(** What the zones have done: [keys z k], k is a key of zone z; [signed z r s], zone z has signed s, with the signature fields r. *)
(** Zone z takes care: it signs DS records made from keys of the zone that they are for, no others. *)
Definition careful (c : cfg) (x : prims) (keys : fqdn -> dnskey -> Prop) (signed : fqdn -> rrsig -> rrset -> Prop) (z : fqdn) : Prop :=
  forall r s d, signed z r s -> set_type s = DS -> In (DDS d) (set_records s) ->
    exists k, keys (set_name s) k /\ ds_from_dnskey c x (set_name s) k (ds_dt d) = Ok d.
(** The signature [sig] is no forgery under the key k of zone z: the texts it is accepted for are texts the zone has signed. *)
Definition not_forged (c : cfg) (x : prims) (signed : fqdn -> rrsig -> rrset -> Prop) (z : fqdn) (k : dnskey) (sig : bytes) : Prop :=
  forall m, accepts x (dk_pk k) m sig (dk_alg k) ->
    exists r s ds, signed z r s /\ sig_ok r /\ set_ok c s /\ canonical_data c s ds /\ m = signed_octets r s ds.

Lemma at_or_below_refl z : at_or_below z z. Proof. exists []. reflexivity. Qed.
Lemma at_or_below_trans a b d : at_or_below a b -> at_or_below b d -> at_or_below a d.
Proof. intros (f & ->) (g & ->). exists (f ++ g). apply app_assoc. Qed.

Lemma accepted_signed c x bs signed z k r s : search_contract bs -> byte_list (dk_pk k) -> answer_checked c x bs z k r s -> not_forged c x signed z k (rs_sig r) ->
  exists r' s', signed z r' s' /\ same_set s s' /\ r = signed_with r' (rs_sig r).
Proof.
  intros C B [R S NE _ V] NF. destruct (set_canonical c bs s C S) as (ds & D & _). apply (verify_iff c x bs r k s ds C B D) in V. destruct V as (_ & V).
  destruct (NF _ V) as (r' & s' & ds' & Sg & R' & S' & D' & E). exists r', s'. split; [exact Sg|].
  destruct (all_bound c bs r (signed_with r' (rs_sig r)) s s' ds ds') as (Er & Ss); try assumption; [reflexivity|]. split; assumption.
Qed.
Lemma same_set_in s s' d : same_set s s' -> In d (set_records s) -> In d (set_records s').
Proof. intros (_ & _ & _ & _ & P) I. exact (Permutation_in d P I). Qed.

(** The chain leads from a key of the anchor zone to a key of the zone at its end, and every key on the way is one of the zone it is
    used for, if the zones on the way take care; they all lie between the anchor and the end.
    Whatever other zones sign does not matter, nor who delivers the records. *)
Theorem C122_keys_partial : forall (c : cfg) (x : prims) (bs : bsearch) (keys : fqdn -> dnskey -> Prop) (signed : fqdn -> rrsig -> rrset -> Prop) (z : fqdn) (k : dnskey) (ls : list link),
  search_contract bs -> byte_list (dk_pk k) -> keys z k ->
  (forall w kw l, In (w, kw, l) (hops z k ls) -> link_checked c x bs w kw l) ->
  (forall w, at_or_below w z -> at_or_below (fst (reached z k ls)) w -> careful c x keys signed w) ->
  (forall w kw l, In (w, kw, l) (hops z k ls) -> keys w kw -> not_forged c x signed w kw (rs_sig (ln_sig l))) ->
  (forall w kw l k', In (w, kw, l) (hops z k ls) -> keys (set_name (ln_set l)) k' ->
     no_collision x (ds_dt (ln_ds l)) (set_name (ln_set l)) (set_name (ln_set l)) k' (ln_key l)) ->
  keys (fst (reached z k ls)) (snd (reached z k ls)) /\
  (forall w kw l, In (w, kw, l) (hops z k ls) -> keys w kw /\ at_or_below w z /\ at_or_below (fst (reached z k ls)) w) /\
  at_or_below (fst (reached z k ls)) z.
Proof.
  intros c x bs keys signed z k ls C. revert z k. induction ls as [|l ls IH]; intros z k B K Ch Ca NF NC.
  - cbn [hops reached fst snd] in *. split; [exact K|]. split; [intros w kw l []|apply at_or_below_refl].
  - cbn [hops reached] in *. pose proof (Ch z k l (or_introl eq_refl)) as [An Ty Th Ko Ma].
    assert (Dn : at_or_below (fst (reached (set_name (ln_set l)) (ln_key l) ls)) (set_name (ln_set l))).
    { assert (G : forall ls z k, (forall w kw l, In (w, kw, l) (hops z k ls) -> link_checked c x bs w kw l) -> at_or_below (fst (reached z k ls)) z).
      { clear. induction ls as [|l ls IH]; intros z k Ch; cbn [hops reached] in *; [apply at_or_below_refl|].
        eapply at_or_below_trans; [apply IH; intros w kw l' I; apply Ch; right; exact I|]. destruct (Ch z k l (or_introl eq_refl)) as [[_ _ _ O _] _ _ _ _]. exact O. }
      apply G. intros w kw l' I. apply Ch. right. exact I. }
    pose proof (own_name _ _ _ _ _ _ _ An) as O. pose proof (at_or_below_trans _ _ _ Dn O) as Dz.
    assert (K' : keys (set_name (ln_set l)) (ln_key l)).
    { destruct (accepted_signed c x bs signed z k _ _ C B An (NF z k l (or_introl eq_refl) K)) as (r' & s' & Sg & Ss & _).
      destruct (Ca z (at_or_below_refl z) Dz r' s' (ln_ds l) Sg) as (k' & Kk & E).
      - destruct Ss as (_ & T & _). rewrite <- T. exact Ty.
      - exact (same_set_in _ _ _ Ss Th).
      - destruct Ss as (N0 & _). rewrite <- N0 in Kk, E.
        assert (Fo : fqdn_ok (set_name (ln_set l))) by (destruct An as [_ (F & _) _ _ _]; exact F).
        apply (C105_only c x _ _ k' (ln_key l) _ _ Fo Fo (NC z k l k' (or_introl eq_refl) Kk) E) in Ma. destruct Ma as (_ & ->). exact Kk. }
    destruct (IH (set_name (ln_set l)) (ln_key l) Ko K') as (Ke & Kw & _).
    + intros w kw l' I. apply Ch. right. exact I.
    + intros w W1 W2. apply Ca; [exact (at_or_below_trans _ _ _ W1 O)|exact W2].
    + intros w kw l' I. apply NF. right. exact I.
    + intros w kw l' k' I. apply (NC w kw l' k'). right. exact I.
    + split; [exact Ke|]. split; [|exact Dz]. intros w kw l' [E|I].
      * injection E as <- <- <-. split; [exact K|]. split; [apply at_or_below_refl|exact Dz].
      * destruct (Kw w kw l' I) as (W0 & W1 & W2). split; [exact W0|]. split; [exact (at_or_below_trans _ _ _ W1 O)|exact W2].
Qed.

(** An answer accepted at the end of the chain is one that the zone at its end has signed, record for record, with all fields of the
    signature. *)
Theorem C122_answer_partial : forall (c : cfg) (x : prims) (bs : bsearch) (keys : fqdn -> dnskey -> Prop) (signed : fqdn -> rrsig -> rrset -> Prop) (z : fqdn) (k : dnskey) (ls : list link) (r : rrsig) (s : rrset),
  search_contract bs -> byte_list (dk_pk k) -> keys z k ->
  (forall w kw l, In (w, kw, l) (hops z k ls) -> link_checked c x bs w kw l) ->
  answer_checked c x bs (fst (reached z k ls)) (snd (reached z k ls)) r s ->
  (forall w, at_or_below w z -> at_or_below (fst (reached z k ls)) w -> careful c x keys signed w) ->
  (forall w kw l, In (w, kw, l) (hops z k ls) -> keys w kw -> not_forged c x signed w kw (rs_sig (ln_sig l))) ->
  (keys (fst (reached z k ls)) (snd (reached z k ls)) -> not_forged c x signed (fst (reached z k ls)) (snd (reached z k ls)) (rs_sig r)) ->
  (forall w kw l k', In (w, kw, l) (hops z k ls) -> keys (set_name (ln_set l)) k' ->
     no_collision x (ds_dt (ln_ds l)) (set_name (ln_set l)) (set_name (ln_set l)) k' (ln_key l)) ->
  exists r' s', signed (fst (reached z k ls)) r' s' /\ same_set s s' /\ r = signed_with r' (rs_sig r).
Proof.
  intros c x bs keys signed z k ls r s C B K Ch An Ca NF NFr NC.
  apply (accepted_signed c x bs signed _ (snd (reached z k ls)) r s C);
    [|exact An|apply NFr, (C122_keys_partial c x bs keys signed z k ls C B K Ch Ca NF NC)].
  clear - Ch B. revert z k B Ch. induction ls as [|l ls IH]; intros z k B Ch; cbn [hops reached] in *; [exact B|].
  apply IH; [exact (key_octets _ _ _ _ _ _ (Ch z k l (or_introl eq_refl)))|]. intros w kw l' I. apply Ch. right. exact I.
Qed.

(** Conversely a chain made with the library, of any length, passes every check. *)
Record link_made (c : cfg) (x : prims) (z : fqdn) (k : dnskey) (l : link) : Prop := mkMade {
  made_set : set_ok c (ln_set l); made_type : set_type (ln_set l) = DS; made_below : at_or_below (set_name (ln_set l)) z;
  made_ds : exists t, ds_from_dnskey c x (set_name (ln_set l)) (ln_key l) t = Ok (ln_ds l);
  made_in : In (DDS (ln_ds l)) (set_records (ln_set l));
  made_octets : byte_list (dk_pk (ln_key l));
  made_sig : exists bs seed key inc exp, search_contract bs /\ key_pair x key (dk_pk k) (dk_alg k) /\ rrsig_from_dnskey c x bs seed k (ln_set l) inc exp key = Ok (ln_sig l) }.

Lemma key_tag_small c k t : compute_key_tag c k = Ok t -> t < 65536.
Proof.
  unfold compute_key_tag. intros E. apply rbind_ok in E. destruct E as (s & _ & E). apply rbind_ok in E. destruct E as (u & _ & E). apply Ok_inj in E. subst t.
  rewrite land_16. lia.
Qed.
Lemma made_sig_ok c x bs seed k s inc exp key r : search_contract bs -> set_ok c s -> Forall (rdata_writable c) (set_records s) -> rrsig_from_dnskey c x bs seed k s inc exp key = Ok r -> sig_ok r.
Proof.
  intros C (Fo & Cl & Tt & F) W E. apply from_dnskey_ok in E; [|exact C|eapply Forall_impl; [|exact F]; intros d H; apply H|exact W].
  destruct E as (ds & tag & i & e & _ & T & Ti & Te & -> & _). unfold sig_ok. cbn [rs_signer rs_labels rs_ttl rs_exp rs_inc rs_tag].
  unfold time_field in Ti, Te. destruct (inc <? 0)%Z; [discriminate|]. destruct (exp <? 0)%Z; [discriminate|]. apply Ok_inj in Ti, Te. subst i e.
  split; [exact Fo|]. split; [unfold fqdn_label_count, len8, u8; lia|]. split; [exact Tt|]. split; [unfold u32; lia|]. split; [unfold u32; lia|]. exact (key_tag_small c k tag T).
Qed.

Theorem C122_made : forall (c : cfg) (x : prims) (bs : bsearch) (z : fqdn) (k : dnskey) (ls : list link), search_contract bs -> byte_list (dk_pk k) ->
  (forall w kw l, In (w, kw, l) (hops z k ls) -> link_made c x w kw l) ->
  forall w kw l, In (w, kw, l) (hops z k ls) -> link_checked c x bs w kw l.
Proof.
  intros c x bs z k ls C. revert z k. induction ls as [|l ls IH]; intros z k B M w kw l' I; cbn [hops] in *; [destruct I|].
  pose proof (M z k l (or_introl eq_refl)) as [So Ty Be (t & Dm) Th Ko (bs' & seed & key & inc & exp & C' & Kp & Sg)].
  destruct I as [E|I]; [|eapply (IH _ _ Ko); [|exact I]; intros w1 k1 l1 I1; apply M; right; exact I1].
  injection E as <- <- <-.
  assert (W : Forall (rdata_writable c) (set_records (ln_set l))).
  { destruct So as (_ & _ & _ & F). eapply Forall_impl; [|exact F]. intros d (T & _). rewrite Ty in T. destruct d; try discriminate T; exact I. }
  assert (T : Forall (rdata_typed c) (set_records (ln_set l))) by (destruct So as (_ & _ & _ & F); eapply Forall_impl; [|exact F]; intros d H; apply H).
  apply mkChecked; try assumption.
  - apply mkAnswer; try assumption; [exact (made_sig_ok c x bs' seed k _ inc exp key _ C' So W Sg)|intros Z; rewrite Z in Th; destruct Th|].
    exact (C39_signed_verifies_partial c x bs' bs seed k _ inc exp key _ C' C T W B Kp Sg).
  - replace (ds_dt (ln_ds l)) with t; [exact Dm|]. unfold ds_from_dnskey in Dm. apply rbind_ok in Dm. destruct Dm as (tag & _ & Dm). apply Ok_inj in Dm. rewrite <- Dm. reflexivity.
Qed.

(** False without the check of the name, which the library leaves to its caller: with the key of any zone whatever DS records can be
    signed for every name, made from every key, and the library accepts them. *)
Theorem C122_name_refuted : forall (c : cfg) (x : prims) (bs bs' : bsearch) (seed key : bytes) (k mine : dnskey) (victim : fqdn) (t : digest_type) (d : ds) (inc exp : time) (r : rrsig),
  let s := mkRRset victim DS CIN 3600 [DDS d] in
  search_contract bs -> search_contract bs' -> dnssec c = true -> byte_list (dk_pk k) -> key_pair x key (dk_pk k) (dk_alg k) ->
  ds_from_dnskey c x victim mine t = Ok d -> rrsig_from_dnskey c x bs seed k s inc exp key = Ok r ->
  rrsig_verify c x bs' r k s = Ok true /\ ds_from_dnskey c x (set_name s) mine (ds_dt d) = Ok d.
Proof.
  intros c x bs bs' seed key k mine victim t d inc exp r s C C' Ds B Kp Dm Sg. unfold ds_from_dnskey in Dm |- *. apply rbind_ok in Dm. destruct Dm as (tag & Et & Dm). apply Ok_inj in Dm.
  split.
  - apply (C39_signed_verifies_partial c x bs bs' seed k s inc exp key r C C'); try assumption; [|repeat constructor].
    repeat constructor; [|subst d; exact (key_tag_small c mine tag Et)]. unfold rtype_exists. cbn. rewrite Ds. reflexivity.
  - rewrite <- Dm. cbn [set_name s ds_dt]. rewrite Et. reflexivity.
Qed.
(** Nor can the caller check the name by the signer's name in the signature (RFC 4035, 5.3.1): the library writes there the owner of the set, so a
    delegation names the child as its signer and not the zone that signed it. *)
Theorem C122_signer_refuted : forall (c : cfg) (x : prims) (bs : bsearch) (seed key : bytes) (k : dnskey) (s : rrset) (inc exp : time) (r : rrsig) (z : fqdn),
  search_contract bs -> set_ok c s -> set_type s = DS -> rrsig_from_dnskey c x bs seed k s inc exp key = Ok r -> set_name s <> z -> rs_signer r = set_name s /\ rs_signer r <> z.
Proof.
  intros c x bs seed key k s inc exp r z C (Fo & Cl & Tt & F) Ty E N.
  apply from_dnskey_ok in E; [|exact C|eapply Forall_impl; [|exact F]; intros d H; apply H|].
  - destruct E as (ds & tag & i & e & _ & _ & _ & _ & -> & _). cbn [rs_signer]. auto.
  - eapply Forall_impl; [|exact F]. intros d (T & _). rewrite Ty in T. destruct d; try discriminate T; exact I.
Qed.

(** Two steps, from the zone com by example.com to www.example.com, and a set of addresses there. *)
Definition com : fqdn := [[99; 111; 109]].
Definition example_com : fqdn := [[101; 120; 97; 109; 112; 108; 101]; [99; 111; 109]].
Definition key1 : dnskey := ex_key ED25519 [1; 2; 3].
Definition key2 : dnskey := ex_key ED25519 [4; 5].
Definition key3 : dnskey := ex_key ED25519 [6].
Definition get {A} (d : A) (r : res A) : A := match r with Ok a => a | _ => d end.
Definition ds_for (f : fqdn) (k : dnskey) : ds := get (mkDs 0 ED25519 DtSHA1 []) (ds_from_dnskey ex_cfg toy f k DtSHA256).
Definition sig_for (k : dnskey) (s : rrset) : rrsig := get bound_sig (rrsig_from_dnskey ex_cfg toy linear_search [] k s day (2 * day)%Z []).
Definition ds_set (f : fqdn) (k : dnskey) : rrset := mkRRset f DS CIN 3600 [DDS (ds_for f k)].
Definition ex_link (k : dnskey) (f : fqdn) (k' : dnskey) : link := mkLink (sig_for k (ds_set f k')) (ds_set f k') (ds_for f k') k'.
Definition ex_chain : list link := [ex_link key1 example_com key2; ex_link key2 ex_www key3].
Definition ex_keys (z : fqdn) (k : dnskey) : Prop := In (z, k) [(com, key1); (example_com, key2); (ex_www, key3)].
Definition ex_signed (z : fqdn) (r : rrsig) (s : rrset) : Prop :=
  In (z, r, s) [(com, sig_for key1 (ds_set example_com key2), ds_set example_com key2); (example_com, sig_for key2 (ds_set ex_www key3), ds_set ex_www key3);
    (ex_www, sig_for key3 ex_set, ex_set)].
Lemma com_ok : fqdn_ok com /\ fqdn_ok example_com /\ fqdn_ok ex_www.
Proof. unfold fqdn_ok, label_ok. repeat split; repeat constructor; cbn; lia. Qed.
Lemma ds_set_ok f k : fqdn_ok f -> ds_tag (ds_for f k) < 65536 -> N.of_nat (length (ds_to_bytes (ds_for f k))) <= 65535 -> set_ok ex_cfg (ds_set f k).
Proof.
  intros F T L. split; [exact F|]. split; [reflexivity|]. split; [reflexivity|]. constructor; [|constructor]. split; [reflexivity|]. split; [split; [reflexivity|exact T]|]. split; [exact I|].
  intros b E. apply Ok_inj in E. subst b. exact L.
Qed.
Lemma ex_set_ok : set_ok ex_cfg ex_set.
Proof. exact (proj1 (proj2 (proj2 C112_ex))). Qed.
Lemma ex_made : forall w kw l, In (w, kw, l) (hops com key1 ex_chain) -> link_made ex_cfg toy w kw l.
Proof.
  pose proof com_ok as (F1 & F2 & F3). intros w kw l [E|[E|[]]]; injection E as <- <- <-.
  - apply mkMade; [apply ds_set_ok; [exact F2|vm_compute; reflexivity|vm_compute; discriminate]|reflexivity|exists [[101; 120; 97; 109; 112; 108; 101]]; reflexivity|exists DtSHA256; vm_compute; reflexivity|left; reflexivity|repeat constructor|].
    exists linear_search, [], [], day, (2 * day)%Z. split; [apply linear_search_ok|]. split; [apply toy_pair|vm_compute; reflexivity].
  - apply mkMade; [apply ds_set_ok; [exact F3|vm_compute; reflexivity|vm_compute; discriminate]|reflexivity|exists [[119; 119; 119]]; reflexivity|exists DtSHA256; vm_compute; reflexivity|left; reflexivity|repeat constructor|].
    exists linear_search, [], [], day, (2 * day)%Z. split; [apply linear_search_ok|]. split; [apply toy_pair|vm_compute; reflexivity].
Qed.
Lemma toy_text k m sg : dk_alg k = ED25519 -> accepts toy (dk_pk k) m sg (dk_alg k) -> m = sg.
Proof. intros -> H. inversion H as [| | | | | | |V|]. cbn [toy ed25519_verify] in V. unfold same in V. destruct (list_eq_dec N.eq_dec m sg); [assumption|discriminate]. Qed.
Lemma toy_honest z k s : dk_alg k = ED25519 -> set_ok ex_cfg s -> Forall (rdata_writable ex_cfg) (set_records s) -> ex_signed z (sig_for k s) s ->
  rrsig_from_dnskey ex_cfg toy linear_search [] k s day (2 * day)%Z [] = Ok (sig_for k s) -> not_forged ex_cfg toy ex_signed z k (rs_sig (sig_for k s)).
Proof.
  intros A So W Sg E m H. apply toy_text in H; [|exact A]. pose proof (made_sig_ok _ _ _ _ _ _ _ _ _ _ linear_search_ok So W E) as R.
  apply from_dnskey_ok in E; [|apply linear_search_ok|destruct So as (_ & _ & _ & F); eapply Forall_impl; [|exact F]; intros d Hd; apply Hd|exact W].
  destruct E as (ds & tag & i & e & D & _ & _ & _ & _ & Sd). rewrite A in Sd. cbn [sign_data toy ed25519_sign ok_or] in Sd. apply Ok_inj in Sd.
  exists (sig_for k s), s, ds. rewrite H, <- Sd. repeat (split; [assumption|]). reflexivity.
Qed.
Example C122_ex : search_contract linear_search /\ byte_list (dk_pk key1) /\ ex_keys com key1 /\ reached com key1 ex_chain = (ex_www, key3) /\
  (forall w kw l, In (w, kw, l) (hops com key1 ex_chain) -> link_checked ex_cfg toy linear_search w kw l) /\
  answer_checked ex_cfg toy linear_search ex_www key3 (sig_for key3 ex_set) ex_set /\
  (forall w, careful ex_cfg toy ex_keys ex_signed w) /\
  (forall w kw l, In (w, kw, l) (hops com key1 ex_chain) -> not_forged ex_cfg toy ex_signed w kw (rs_sig (ln_sig l))) /\
  not_forged ex_cfg toy ex_signed ex_www key3 (rs_sig (sig_for key3 ex_set)) /\
  (forall w kw l k', In (w, kw, l) (hops com key1 ex_chain) -> ex_keys (set_name (ln_set l)) k' ->
     no_collision toy (ds_dt (ln_ds l)) (set_name (ln_set l)) (set_name (ln_set l)) k' (ln_key l)).
Proof.
  assert (B : byte_list (dk_pk key1)) by (repeat constructor). assert (B3 : byte_list (dk_pk key3)) by (repeat constructor).
  pose proof (C122_made ex_cfg toy linear_search com key1 ex_chain linear_search_ok B ex_made) as Ch.
  assert (S3 : rrsig_from_dnskey ex_cfg toy linear_search [] key3 ex_set day (2 * day)%Z [] = Ok (sig_for key3 ex_set)) by (vm_compute; reflexivity).
  destruct (ex_set_typed ex_cfg) as (T & W).
  split; [apply linear_search_ok|]. split; [exact B|]. split; [left; reflexivity|]. split; [reflexivity|]. split; [exact Ch|]. split; [|split; [|split; [|split]]].
  - apply mkAnswer; [exact (made_sig_ok _ _ _ _ _ _ _ _ _ _ linear_search_ok ex_set_ok W S3)|exact ex_set_ok|discriminate|apply at_or_below_refl|].
    exact (C39_signed_verifies_partial ex_cfg toy _ _ [] key3 _ _ _ [] _ linear_search_ok linear_search_ok T W B3 (toy_pair [] _) S3).
  - intros w r s d [E|[E|[E|[]]]] Ty Id; injection E as <- <- <-; [| |discriminate Ty].
    + destruct Id as [Id|[]]. injection Id as <-. exists key2. split; [right; left; reflexivity|vm_compute; reflexivity].
    + destruct Id as [Id|[]]. injection Id as <-. exists key3. split; [right; right; left; reflexivity|vm_compute; reflexivity].
  - intros w kw l I. pose proof (ex_made w kw l I) as [So _ _ _ _ _ _]. destruct I as [E|[E|[]]]; injection E as <- <- <-; cbn [ex_link ln_set ln_sig] in *.
    + apply toy_honest; [reflexivity|exact So|repeat constructor|left; reflexivity|vm_compute; reflexivity].
    + apply toy_honest; [reflexivity|exact So|repeat constructor|right; left; reflexivity|vm_compute; reflexivity].
  - apply toy_honest; [reflexivity|exact ex_set_ok|exact W|right; right; left; reflexivity|exact S3].
  - intros w kw l k' [E|[E|[]]] _ H; injection E as <- <- <-; exact H.
Qed.

(** The owner of com and of nothing else vouches for a key of their own at another name, org. *)
Definition org : fqdn := [[111; 114; 103]].
Example C122_ex_name : ~ at_or_below org com /\ key_pair toy [] (dk_pk key1) (dk_alg key1) /\ ds_from_dnskey ex_cfg toy org key2 DtSHA256 = Ok (ds_for org key2) /\
  set_ok ex_cfg (ds_set org key2) /\ rrsig_from_dnskey ex_cfg toy linear_search [] key1 (ds_set org key2) day (2 * day)%Z [] = Ok (sig_for key1 (ds_set org key2)).
Proof.
  split; [intros (f & E); apply (f_equal (fun l => last l [])) in E; unfold com in E; rewrite last_last in E; discriminate E|]. split; [apply toy_pair|]. split; [vm_compute; reflexivity|].
  split; [|vm_compute; reflexivity]. apply ds_set_ok; [unfold fqdn_ok, label_ok; repeat constructor; cbn; lia|vm_compute; reflexivity|vm_compute; discriminate].
Qed.

Print Assumptions C122_keys_partial.
Print Assumptions C122_answer_partial.
Print Assumptions C122_made.
Print Assumptions C122_name_refuted.
Print Assumptions C122_signer_refuted.
