(** * Proof that messages written with compression have the layout of the RFCs *)
From Coq Require Import Lia ZifyNat ZifyN ZifyBool Sorting.Sorted.
From Verif Require Import Base Buffer Fqdn Header Types RDataBasic Bitmap Svcb RDataSec RData Packet BaseFacts NameSpec FqdnFacts HeaderSpec HeaderFacts CodeSpec
  RDataSpec RDataReads SvcbFacts RDataFacts RecordSpec RecordFacts RecordProps CompressSpec PacketFacts FieldSpec FieldFacts LayoutSpec LayoutFacts LayoutUnique ReadSpec InteropSpec InteropFacts StrictFacts.
Ltac Zify.zify_post_hook ::= Z.div_mod_to_equations.

(** [bs], written after [w], is the fields. *)
Definition put (w : bytes) (fs : list field) (bs : bytes) : Prop := fields_at (w ++ bs) fs (length w) (length w + length bs).

Lemma octets_at_mid (w a x : bytes) : octets_at (w ++ a ++ x) (length w) a.
Proof.
  split; [rewrite !app_length; lia|]. unfold slice. rewrite skipn_app, skipn_all, Nat.sub_diag. cbn [app skipn]. rewrite firstn_app, Nat.sub_diag, firstn_all. cbn [firstn]. apply app_nil_r.
Qed.
Lemma name_placed f bs : name_octets f bs -> forall w x, strict_name_at (w ++ bs ++ x) 63 (length w) f (length w + length bs).
Proof.
  induction 1 as [|l f bs L N IH]; intros w x.
  - cbn [length]. apply strict_root. rewrite nth_error_app2, Nat.sub_diag by lia. reflexivity.
  - replace (length w + length (N.of_nat (length l) :: l ++ bs))%nat with (length (w ++ N.of_nat (length l) :: l) + length bs)%nat by (rewrite app_length; cbn [length]; rewrite app_length; lia).
    apply strict_label.
    + exists (N.of_nat (length l)). split; [rewrite nth_error_app2, Nat.sub_diag by lia; reflexivity|]. split; [lia|]. split.
      * rewrite app_length. cbn [app length]. rewrite !app_length. lia.
      * rewrite Nnat.Nat2N.id. pose proof (octets_at_mid (w ++ [N.of_nat (length l)]) l (bs ++ x)) as (_ & O). rewrite app_length in O. cbn [length] in O.
        rewrite <- app_assoc in O. cbn [app] in O |- *. rewrite <- app_assoc. symmetry. exact O.
    + specialize (IH (w ++ N.of_nat (length l) :: l) x). rewrite <- app_assoc in IH. cbn [app] in IH |- *. rewrite <- app_assoc.
      replace (length w + 1 + length l)%nat with (length (w ++ N.of_nat (length l) :: l)) by (rewrite app_length; cbn [length]; lia). exact IH.
Qed.
Lemma placed_gen : (forall f bs, field_octets f bs -> forall w x, field_at (w ++ bs ++ x) f (length w) (length w + length bs)) /\
  (forall fs bs, fields_octets fs bs -> forall w x, fields_at (w ++ bs ++ x) fs (length w) (length w + length bs)).
Proof.
  apply (octets_ind (fun f bs _ => forall w x, field_at (w ++ bs ++ x) f (length w) (length w + length bs)) (fun fs bs _ => forall w x, fields_at (w ++ bs ++ x) fs (length w) (length w + length bs))).
  - intros k v bs L B V w x. apply at_other; [exact I|constructor; assumption|apply octets_at_mid].
  - intros k such v bs S L B V w x. apply at_other; [exact I|apply (f_registered k such v); assumption|apply octets_at_mid].
  - intros f bs N w x. apply at_name. apply name_placed, N.
  - intros s L w x. apply at_other; [exact I|constructor; exact L|apply octets_at_mid].
  - intros b w x. apply at_other; [exact I|constructor|apply octets_at_mid].
  - intros ts ws O M E w x. apply at_other; [exact I|constructor; assumption|apply octets_at_mid].
  - intros n k a bs A w x. apply at_other; [exact I|constructor; exact A|apply octets_at_mid].
  - intros k fs l bs F IH L B V w x. apply (at_prefixed _ k fs l); [rewrite <- app_assoc; apply octets_at_mid|exact L|exact B| |].
    + rewrite V. f_equal. rewrite app_length. lia.
    + specialize (IH (w ++ l) x). rewrite !app_length, L in *. rewrite <- !app_assoc in *. replace (length w + (k + length bs))%nat with (length w + k + length bs)%nat by lia. exact IH.
  - intros w x. cbn [length]. replace (length w + 0)%nat with (length w) by lia. constructor.
  - intros f fs a bs F IF G IG w x. eapply at_more; [rewrite <- app_assoc; apply IF|]. specialize (IG (w ++ a) x). rewrite !app_length in *. rewrite <- !app_assoc in *.
    replace (length w + (length a + length bs))%nat with (length w + length a + length bs)%nat by lia. exact IG.
Qed.
Lemma put_plain w fs bs : fields_octets fs bs -> put w fs bs.
Proof. intros H. unfold put. pose proof (proj2 placed_gen fs bs H w []) as P. rewrite app_nil_r in P. exact P. Qed.
Lemma at_ext w x fs p e : fields_at w fs p e -> fields_at (w ++ x) fs p e.
Proof. intros H. apply (proj2 (fields_more (w ++ x) (length w))). rewrite firstn_app, Nat.sub_diag, firstn_all. cbn [firstn]. rewrite app_nil_r. exact H. Qed.
Lemma put_app w fs gs a b : put w fs a -> put (w ++ a) gs b -> put w (fs ++ gs) (a ++ b).
Proof.
  unfold put. intros F G. rewrite !app_length in *. rewrite app_assoc. eapply to_app; [apply at_ext, F|]. replace (length w + (length a + length b))%nat with (length w + length a + length b)%nat by lia. exact G.
Qed.
Lemma put_more w f fs a b : put w [f] a -> put (w ++ a) fs b -> put w (f :: fs) (a ++ b).
Proof. apply (put_app w [f]). Qed.
Lemma put_nil w : put w [] [].
Proof. unfold put. cbn [length]. replace (length w + 0)%nat with (length w) by lia. constructor. Qed.
Lemma put_prefixed w fs n bs : n = N.of_nat (length bs) -> n < 65536 -> put (w ++ be 2 n) fs bs -> put w [Prefixed 2 fs] (be 2 n ++ bs).
Proof.
  intros -> L H. unfold put in *. rewrite !app_length, be_length in *. eapply at_more; [|constructor]. apply (at_prefixed _ 2 fs (be 2 (N.of_nat (length bs)))).
  - pose proof (octets_at_mid w (be 2 (N.of_nat (length bs))) bs) as O. exact O.
  - apply be_length.
  - apply be_bytes.
  - rewrite (unbe_be2 _ L : value_of _ = _). f_equal. lia.
  - rewrite app_assoc. replace (length w + (2 + length bs))%nat with (length w + 2 + length bs)%nat by lia. exact H.
Qed.

Lemma legal_upto f : legal_name f <-> labels_upto 63 f.
Proof. unfold legal_name, labels_upto. split; apply Forall_impl; intros l; lia. Qed.

Section Compressed.
  Context (c : cfg) (h : hasher) (U : fqdn -> Prop) (NC : no_collision h U).
  Notation dict := (dict_ok h U 63).
  (** Written after [w] with the dictionary [m]: the fields, and a dictionary that is right again. *)
  Definition compresses (w : bytes) (fs : list field) (bs : bytes) (m' : names) : Prop := put w fs bs /\ dict (w ++ bs) m'.

  Lemma name_compresses w m f bs m' : legal_name f -> suffixes_in U f -> dict w m ->
    fqdn_to_bytes_compressed h f m (length w) = (bs, m') -> N.of_nat (length w + length bs) <= 16384 -> compresses w [DomainName f] bs m'.
  Proof.
    intros L S D E B. destruct (compress_strict h U 63 ltac:(lia) NC w m f bs m') as [H1 H2]; try assumption; [apply legal_upto, L|].
    split; [|exact H2]. eapply at_more; [apply at_name; exact H1|constructor].
  Qed.
  Lemma compresses_plain w fs bs m : dict w m -> fields_octets fs bs -> compresses w fs bs m.
  Proof. intros D F. split; [apply put_plain, F|apply dict_ok_ext, D]. Qed.
  Lemma compresses_app w fs gs a b m1 m2 : compresses w fs a m1 -> compresses (w ++ a) gs b m2 -> compresses w (fs ++ gs) (a ++ b) m2.
  Proof. intros (F & _) (G & D). split; [apply put_app; assumption|rewrite app_assoc; exact D]. Qed.
  Lemma compresses_more w f fs a b m1 m2 : compresses w [f] a m1 -> compresses (w ++ a) fs b m2 -> compresses w (f :: fs) (a ++ b) m2.
  Proof. apply (compresses_app w [f]). Qed.

  Lemma question_compresses w m q bs m' : question_layout_ok q -> suffixes_in U (q_name q) -> dict w m ->
    question_to_bytes_compressed c h q m (length w) = (bs, m') -> N.of_nat (length w + length bs) <= 16384 -> compresses w (question_fields c q) bs m'.
  Proof.
    intros L S D E B. unfold question_to_bytes_compressed in E. destruct (fqdn_to_bytes_compressed h (q_name q) m (length w)) as [nb m1] eqn:E1.
    apply pair_equal_spec in E. destruct E as [E ->]. subst bs. rewrite app_length in B.
    pose proof (name_compresses w m _ nb m' L S D E1 ltac:(lia)) as N. eapply compresses_more; [exact N|]. apply compresses_plain; [apply N|].
    pose proof (question_layout c q L) as F. unfold question_to_bytes in F. apply fs_cons_inv in F. destruct F as (a & b & Ea & F & G). 
    pose proof (f_fqdn _ L) as F'. assert (a = fqdn_to_bytes (q_name q)) as -> by (apply (proj1 octets_unique _ _ F); [exact I|exact F']).
    apply app_inv_head in Ea. subst b. exact G.
  Qed.

  Lemma rdata_compresses w m d bs m' : rdata_typed c d -> layout_ok d -> names_in U (rdata_names d) -> dict w m ->
    rdata_to_bytes_compressed c h d m (length w) = Ok (bs, m') -> N.of_nat (length w + length bs) <= 16384 -> compresses w (rfc_fields d) bs m'.
  Proof.
    intros T L S D E B.
    assert (PLAIN : rdata_to_bytes c d = Ok bs -> m' = m -> compresses w (rfc_fields d) bs m').
    { intros E' ->. destruct (layout_ok_bytes c d T L) as (bs' & E2 & F). assert (bs' = bs) as -> by congruence. apply compresses_plain; assumption. }
    assert (NM : forall f x mm nb m1, legal_name f -> In f (rdata_names d) -> dict (w ++ x) mm ->
       fqdn_to_bytes_compressed h f mm (length (w ++ x)) = (nb, m1) -> (length x + length nb <= length bs)%nat -> compresses (w ++ x) [DomainName f] nb m1).
    { intros f x mm nb m1 Lf I Dx Ex Lx. apply (name_compresses _ mm); [exact Lf|exact (S f I)|exact Dx|exact Ex|]. rewrite app_length. lia. }
    assert (N0 : forall f nb m1, legal_name f -> In f (rdata_names d) ->
       fqdn_to_bytes_compressed h f m (length w) = (nb, m1) -> (length nb <= length bs)%nat -> compresses w [DomainName f] nb m1).
    { intros f nb m1 Lf I Ex Lx. apply (name_compresses _ m); [exact Lf|exact (S f I)|exact D|exact Ex|lia]. }
    destruct T as [EX T].
    destruct d; cbn [rdata_to_bytes_compressed rdata_names layout_ok rfc_fields] in *;
      try (apply rbind_ok in E; destruct E as (b & E1 & E); injection E as <- <-; apply PLAIN; [exact E1|reflexivity]); clear PLAIN.
    - (* NS *) apply Ok_inj in E. apply (N0 x); [exact L|left; reflexivity|exact E|lia].
    - (* CNAME *) apply Ok_inj in E. apply (N0 x); [exact L|left; reflexivity|exact E|lia].
    - (* SOA *) apply Ok_inj in E. unfold soa_to_bytes_compressed in E. destruct L as [L1 L2]. destruct T as (t1 & t2 & t3 & t4 & t5).
      destruct (fqdn_to_bytes_compressed h (soa_mname x) m (length w)) as [b1 m1] eqn:E1.
      destruct (fqdn_to_bytes_compressed h (soa_rname x) m1 (length w + length b1)) as [b2 m2] eqn:E2.
      apply pair_equal_spec in E. destruct E as [E ->].
      assert (LB : (length b1 + length b2 <= length bs)%nat) by (subst bs; rewrite !app_length; lia).
      pose proof (N0 _ b1 m1 L1 (or_introl eq_refl) E1 ltac:(lia)) as C1.
      pose proof (NM _ b1 m1 b2 m' L2 (or_intror (or_introl eq_refl)) (proj2 C1) ltac:(rewrite app_length; exact E2) LB) as C2.
      subst bs. eapply compresses_more; [exact C1|]. eapply compresses_more; [exact C2|]. apply compresses_plain; [apply C2|]. unfold soa_fixed_bytes. repeat lay.
    - (* PTR *) apply Ok_inj in E. apply (N0 x); [exact L|left; reflexivity|exact E|lia].
    - (* MINFO *) apply Ok_inj in E. unfold minfo_to_bytes_compressed in E. destruct L as [L1 L2].
      destruct (fqdn_to_bytes_compressed h (minfo_r x) m (length w)) as [b1 m1] eqn:E1.
      destruct (fqdn_to_bytes_compressed h (minfo_e x) m1 (length w + length b1)) as [b2 m2] eqn:E2.
      apply pair_equal_spec in E. destruct E as [E ->].
      assert (LB : (length b1 + length b2 <= length bs)%nat) by (subst bs; rewrite !app_length; lia).
      pose proof (N0 _ b1 m1 L1 (or_introl eq_refl) E1 ltac:(lia)) as C1.
      pose proof (NM _ b1 m1 b2 m' L2 (or_intror (or_introl eq_refl)) (proj2 C1) ltac:(rewrite app_length; exact E2) LB) as C2.
      subst bs. eapply compresses_more; [exact C1|exact C2].
    - (* MX *) apply Ok_inj in E. unfold mx_to_bytes_compressed in E.
      destruct (fqdn_to_bytes_compressed h (mx_exchange x) m (length w + 2)) as [b1 m1] eqn:E1.
      apply pair_equal_spec in E. destruct E as [E ->].
      pose proof (NM _ (be 2 (mx_pref x)) m b1 m' L (or_introl eq_refl) (dict_ok_ext _ _ _ _ _ _ D) ltac:(rewrite app_length, be_length; exact E1) ltac:(subst bs; rewrite app_length; lia)) as C1.
      subst bs. eapply compresses_more; [|exact C1]. apply compresses_plain; [exact D|]. apply f_one. fld.
    - (* SRV *) apply Ok_inj in E. unfold srv_to_bytes_compressed in E. destruct T as (t1 & t2 & t3).
      destruct (fqdn_to_bytes_compressed h (srv_target x) m (length w + 6)) as [b1 m1] eqn:E1.
      apply pair_equal_spec in E. destruct E as [E ->].
      pose proof (NM _ (srv_fixed_bytes x) m b1 m' L (or_introl eq_refl) (dict_ok_ext _ _ _ _ _ _ D)
        ltac:(rewrite app_length; unfold srv_fixed_bytes; rewrite !app_length, !be_length; exact E1) ltac:(subst bs; rewrite app_length; lia)) as C1.
      subst bs. eapply (compresses_app w [Number 2 _; Number 2 _; Number 2 _]); [|exact C1]. apply compresses_plain; [exact D|]. unfold srv_fixed_bytes. repeat lay.
    - (* NAPTR *) apply Ok_inj in E. unfold naptr_to_bytes_compressed in E. destruct T as (t1 & t2 & t3). destruct L as (f1 & f2 & f3 & f4).
      destruct (fqdn_to_bytes_compressed h (na_repl x) m _) as [b1 m1] eqn:E1.
      apply pair_equal_spec in E. destruct E as [E ->].
      pose proof (NM _ (naptr_fixed_bytes x) m b1 m' f4 (or_introl eq_refl) (dict_ok_ext _ _ _ _ _ _ D) ltac:(rewrite app_length; exact E1) ltac:(subst bs; rewrite app_length; lia)) as C1.
      subst bs. eapply (compresses_app w [_; _; _; _; _] [DomainName (na_repl x)]); [|exact C1]. apply compresses_plain; [exact D|].
      unfold naptr_fixed_bytes. do 2 lay. apply f_more; [apply f_pref8; [rewrite map_length; assumption|]|repeat lay].
      clear - f1. induction (na_flags x) as [|f l IH]; cbn [map]; [constructor|]. change (nflag_code f :: map nflag_code l) with ([nflag_code f] ++ map nflag_code l).
      cbn [length] in *. constructor; [apply f_regb; destruct f; try pick; cbn; lia|apply IH; lia].
    - (* NSEC *) unfold nsec_to_bytes_compressed in E. destruct L as [L1 L2]. destruct (nsec_bytes c x T) as (ws & EB & _ & O & M & N).
      unfold nsec_to_bytes in EB. apply rbind_ok in EB. destruct EB as (k & _ & EB). apply rbind_ok in EB. destruct EB as (tb & ET & EB). apply Ok_inj in EB. apply app_inv_head in EB. subst tb.
      destruct (fqdn_to_bytes_compressed h (ns_next x) m (length w)) as [b1 m1] eqn:E1. rewrite ET in E. cbn [rbind] in E. apply Ok_inj in E.
      apply pair_equal_spec in E. destruct E as [E ->].
      pose proof (N0 _ b1 m' L1 (or_introl eq_refl) E1 ltac:(subst bs; rewrite app_length; lia)) as C1. subst bs.
      eapply compresses_more; [exact C1|]. apply compresses_plain; [apply C1|]. apply f_one. eapply f_types; eassumption.
  Qed.

  Lemma record_compresses w m r bs m' : record_fields_ok c r -> names_in U (rr_names r) -> dict w m ->
    rr_to_bytes_compressed c h r m (length w) = Ok (bs, m') -> N.of_nat (length w + length bs) <= 16384 -> compresses w (record_fields c r) bs m'.
  Proof.
    intros (T & L & K & TT & F) S D E B. unfold rr_to_bytes_compressed in E.
    destruct (fqdn_to_bytes_compressed h (rr_name r) m (length w)) as [nb m1] eqn:E1.
    apply rbind_ok in E. destruct E as ([db m2] & E2 & E). cbn [fst snd] in E. apply Ok_inj in E.
    apply pair_equal_spec in E. destruct E as [E ->].
    assert (LB : (length nb + 10 + length db = length bs)%nat) by (subst bs; rewrite !app_length, !be_length; lia).
    rewrite len16_id in E by lia.
    pose proof (name_compresses w m _ nb m1 L (S _ (or_introl eq_refl)) D E1 ltac:(lia)) as C1.
    set (mid := be 2 (rtype_code (rr_type r)) ++ be 2 (rr_class_field c r) ++ be 4 (rr_ttl r)).
    assert (LM : length mid = 8%nat) by (unfold mid; rewrite !app_length, !be_length; reflexivity).
    set (ln := be 2 (N.of_nat (length db))). assert (LL : length ln = 2%nat) by apply be_length.
    pose proof (rdata_compresses (((w ++ nb) ++ mid) ++ ln) m1 (rr_data r) db m' T F) as C2. destruct C2 as [P2 D2].
    - intros f I. apply S. right. exact I.
    - do 2 apply dict_ok_ext. apply C1.
    - rewrite <- E2. f_equal. rewrite !app_length, LM, LL, ?be_length. lia.
    - rewrite !app_length, LM, LL. lia.
    - replace bs with (nb ++ mid ++ ln ++ db) by (subst bs; unfold mid, ln; rewrite <- !app_assoc; reflexivity).
      unfold record_fields. eapply compresses_more; [exact C1|]. eapply (compresses_app _ [_; _; _]); [apply compresses_plain; [apply C1|]|].
      + unfold mid. apply f_more; [apply f_reg; [apply type_number; reflexivity|destruct (rr_type r); reflexivity]|].
        assert (C : rclass_code (rr_class r) < 32768) by (destruct (rr_class r); cbn; try reflexivity; exact K).
        assert (X : rr_class_field c r = rclass_code (rr_class r) + flag (mdns c && rr_flush r) 32768).
        { unfold rr_class_field, flag. destruct (mdns c), (rr_flush r); cbn [andb]; try lia. apply lor_top, C. }
        rewrite X. apply f_more; [apply f_reg|].
        * exists (rclass_code (rr_class r)). split; [|reflexivity]. unfold class_number. destruct (rr_class r); cbn; tauto.
        * unfold flag. destruct (mdns c && rr_flush r); change (256 ^ N.of_nat 2) with 65536; lia.
        * apply f_one, f_be; cbn; lia.
      + split; [apply put_prefixed; [reflexivity|lia|exact P2]|rewrite app_assoc; exact D2].
  Qed.

  Lemma questions_compress qs : Forall question_layout_ok qs -> names_in U (map q_name qs) -> forall w m w' m', dict w m ->
    questions_compressed c h qs w m = (w', m') -> N.of_nat (length w') <= 16384 -> exists bs, w' = w ++ bs /\ compresses w (flat_map (question_fields c) qs) bs m'.
  Proof.
    induction 1 as [|q qs H F IH]; intros S w m w' m' D E B; cbn [questions_compressed] in E.
    - injection E as <- <-. exists []. split; [symmetry; apply app_nil_r|]. split; [apply put_nil|rewrite app_nil_r; exact D].
    - destruct (question_to_bytes_compressed c h q m (length w)) as [b m1] eqn:E1. destruct (questions_prefix _ _ _ _ _ _ _ E) as [x Ex].
      pose proof (question_compresses w m q b m1 H (S _ (or_introl eq_refl)) D E1 ltac:(rewrite Ex in B; rewrite !app_length in B; lia)) as C1.
      destruct (IH (fun f I => S f (or_intror I)) (w ++ b) m1 w' m' (proj2 C1) E B) as (bs & -> & C2).
      exists (b ++ bs). split; [symmetry; apply app_assoc|]. cbn [flat_map]. eapply compresses_app; eassumption.
  Qed.
  Lemma records_compress rs : Forall (record_fields_ok c) rs -> names_in U (flat_map rr_names rs) -> forall w m w' m', dict w m ->
    records_compressed c h rs w m = Ok (w', m') -> N.of_nat (length w') <= 16384 -> exists bs, w' = w ++ bs /\ compresses w (flat_map (record_fields c) rs) bs m'.
  Proof.
    induction 1 as [|r rs H F IH]; intros S w m w' m' D E B; cbn [records_compressed] in E.
    - apply Ok_inj in E. injection E as <- <-. exists []. split; [symmetry; apply app_nil_r|]. split; [apply put_nil|rewrite app_nil_r; exact D].
    - apply rbind_ok in E. destruct E as ([b m1] & E1 & E). cbn [fst snd] in E. destruct (records_prefix _ _ _ _ _ _ _ E) as [x Ex].
      pose proof (record_compresses w m r b m1 H (fun f I => S f (in_or_app _ _ _ (or_introl I))) D E1 ltac:(rewrite Ex in B; rewrite !app_length in B; lia)) as C1.
      destruct (IH (fun f I => S f (in_or_app _ _ _ (or_intror I))) (w ++ b) m1 w' m' (proj2 C1) E B) as (bs & -> & C2).
      exists (b ++ bs). split; [symmetry; apply app_assoc|]. cbn [flat_map]. eapply compresses_app; eassumption.
  Qed.
End Compressed.

(** The header as it is, counts included, and the sections. *)
Definition written_fields (c : cfg) (p : packet) : list field :=
  header_fields (view (p_header p)) ++ flat_map (question_fields c) (p_questions p) ++ flat_map (record_fields c) (p_answers p)
  ++ flat_map (record_fields c) (p_authorities p) ++ flat_map (record_fields c) (p_additionals p).
Lemma message_compresses c h p bs : header_typed (p_header p) -> Forall question_layout_ok (p_questions p) -> Forall (record_fields_ok c) (records_of p) ->
  hash_separates h (packet_names p) -> packet_to_bytes_compressed c h p = Ok bs -> N.of_nat (length bs) <= 16384 -> fields_at bs (written_fields c p) 0 (length bs).
Proof.
  intros H Q R HS E B. apply records_forall in R. destruct R as (Ra & Rn & Rd). pose proof (names_in_self (packet_names p)) as S.
  set (U := tail_of (packet_names p)) in *. change (no_collision h U) in HS. unfold packet_names, records_of in S. rewrite !flat_map_app in S.
  unfold packet_to_bytes_compressed in E.
  destruct (questions_compressed c h (p_questions p) (header_to_bytes (p_header p)) []) as [w0 m0] eqn:E0.
  apply rbind_ok in E. destruct E as ([w1 m1] & E1 & E). cbn [fst snd] in E.
  apply rbind_ok in E. destruct E as ([w2 m2] & E2 & E). cbn [fst snd] in E.
  apply rbind_ok in E. destruct E as ([w3 m3] & E3 & E). cbn [fst snd] in E. apply Ok_inj in E. subst w3.
  destruct (records_prefix _ _ _ _ _ _ _ E3) as [x3 X3]. destruct (records_prefix _ _ _ _ _ _ _ E2) as [x2 X2].
  destruct (records_prefix _ _ _ _ _ _ _ E1) as [x1 X1].
  assert (L : N.of_nat (length w0) <= 16384 /\ N.of_nat (length w1) <= 16384 /\ N.of_nat (length w2) <= 16384).
  { clear - B X1 X2 X3. subst. rewrite !app_length in *. lia. }
  destruct L as (L0 & L1 & L2). clear X1 X2 X3.
  destruct (questions_compress c h U HS _ Q (fun f I => S f (in_or_app _ _ _ (or_introl I))) _ _ _ _ (dict_ok_nil _ _ _ _) E0 L0) as (b0 & -> & C0).
  destruct (records_compress c h U HS _ Ra (fun f I => S f (in_or_app _ _ _ (or_intror (in_or_app _ _ _ (or_introl I))))) _ _ _ _ (proj2 C0) E1 L1) as (b1 & -> & C1).
  destruct (records_compress c h U HS _ Rn (fun f I => S f (in_or_app _ _ _ (or_intror (in_or_app _ _ _ (or_intror (in_or_app _ _ _ (or_introl I))))))) _ _ _ _ (proj2 C1) E2 L2) as (b2 & -> & C2).
  destruct (records_compress c h U HS _ Rd (fun f I => S f (in_or_app _ _ _ (or_intror (in_or_app _ _ _ (or_intror (in_or_app _ _ _ (or_intror I))))))) _ _ _ _ (proj2 C2) E3 B) as (b3 & -> & C3).
  rewrite <- !app_assoc.
  assert (P : put [] (written_fields c p) (header_to_bytes (p_header p) ++ b0 ++ b1 ++ b2 ++ b3)); [|exact P].
  unfold written_fields. apply put_app; [apply put_plain, header_layout, H|]. cbn [app]. apply put_app; [apply C0|]. apply put_app; [apply C1|]. apply put_app; [apply C2|apply C3].
Qed.
Lemma written_message c p : counts_of p = true_counts p -> written_fields c p = message_fields c p.
Proof.
  intros C. unfold written_fields, message_fields. unfold counts_of, true_counts in C. injection C as C1 C2 C3 C4. unfold count. rewrite <- C1, <- C2, <- C3, <- C4. reflexivity.
Qed.
