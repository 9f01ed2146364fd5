(** * The record data parsers read exactly the pieces of [ReadSpec] *)
From Coq Require Import Lia ZifyBool ZifyNat ZifyN.
From Verif Require Import Base Utf8 Buffer Fqdn Header Types RDataBasic Bitmap Svcb RDataSec RData Packet BaseFacts Utf8Facts BufferFacts NameSpec FqdnLoop FqdnFacts BitmapFacts
  CodeSpec CodeFacts RDataFacts ParseFacts HeaderSpec WireSpec WireFacts SvcbParse FailSpec FailFacts FieldSpec FieldFacts RepairSpec RepairFacts ReadSpec.
Ltac Zify.zify_post_hook ::= Z.div_mod_to_equations.

(** [p] reads exactly what [R] says. *)
Definition dec {A} (d : bytes) (p : P A) (R : A -> piece) : Prop := forall q, (q <= length d)%nat -> forall v b,
  p (mkbuf d q) = (Ok v, b) <-> exists e, R v q e /\ (e <= length d)%nat /\ b = mkbuf d e.

Lemma dec_ext {A} d (p : P A) (R R' : A -> piece) : (forall v q e, R v q e <-> R' v q e) -> dec d p R -> dec d p R'.
Proof. intros H D q L v b. rewrite (D q L v b). split; intros (e & X & Y); exists e; (split; [apply H, X|exact Y]). Qed.
Lemma dec_ret {A} d (x : A) : dec d (ret x) (fun v q e => x = v /\ q = e).
Proof.
  intros q L v b. unfold ret. split.
  - intros E. injection E as <- <-. exists q. auto.
  - intros (e & (<- & <-) & _ & ->). reflexivity.
Qed.
Lemma dec_fail {A} d x : dec d (@fail A x) (fun _ _ _ => False).
Proof. intros q L v b. unfold fail. split; [discriminate|]. intros (e & [] & _). Qed.
Lemma dec_bind {A B} d (p : P A) (k : A -> P B) R S : dec d p R -> (forall a, dec d (k a) (S a)) ->
  dec d (bind p k) (fun v q e => exists a m, R a q m /\ S a v m e /\ (m <= length d)%nat).
Proof.
  intros D1 D2 q L v b. rewrite bind_iff. split.
  - intros (a & b1 & E1 & E2). apply D1 in E1; [|exact L]. destruct E1 as (m & R1 & Lm & ->). apply D2 in E2; [|exact Lm].
    destruct E2 as (e & S1 & Le & ->). exists e. split; [exists a, m; auto|auto].
  - intros (e & (a & m & R1 & S1 & Lm) & Le & ->). exists a, (mkbuf d m). split; [apply D1; [exact L|eauto]|]. apply D2; [exact Lm|eauto].
Qed.
Lemma dec_pmap {A B} d (f : A -> B) (p : P A) R : dec d p R -> dec d (pmap f p) (fun v q e => exists a, v = f a /\ R a q e).
Proof.
  intros D q L v b. unfold pmap. rewrite bind_iff. split.
  - intros (a & b1 & E1 & E2). cbn [ret] in E2. injection E2 as <- <-. apply D in E1; [|exact L]. destruct E1 as (e & H & Y). exists e. eauto.
  - intros (e & (a & -> & H) & Y). exists a, b. split; [apply D; [exact L|eauto]|reflexivity].
Qed.

(** ** Single pieces *)
Section Pieces.
  Context (d : bytes) (B : byte_list d).
  Lemma octets_slice n q : (q + n <= length d)%nat -> octets d (slice d q n) q (q + n)%nat.
  Proof. intros L. unfold octets, octets_at. rewrite slice_length by exact L. auto. Qed.
  Lemma octets_is s q e : octets d s q e <-> (q + length s <= length d)%nat /\ s = slice d q (length s) /\ e = (q + length s)%nat.
  Proof. unfold octets, octets_at. intuition. Qed.
  Lemma dec_bytes n : dec d (extract_bytes n) (fun s q e => octets d s q e /\ length s = n).
  Proof.
    intros q L v b. rewrite bytes_iff. split.
    - intros (H & -> & ->). exists (q + n)%nat. rewrite slice_length by exact H. split; [split; [apply octets_slice, H|reflexivity]|auto].
    - intros (e & (O & <-) & Le & ->). apply octets_is in O. destruct O as (H & E & ->). auto.
  Qed.
  Lemma dec_number n : dec d (x <- extract_bytes n ;; ret (unbe x)) (num d n).
  Proof.
    intros q L v b. rewrite number_iff. unfold num. split.
    - intros (H & ->). exists (q + n)%nat. split; [auto|]. destruct H as (H & _). auto.
    - intros (e & (H & ->) & _ & ->). auto.
  Qed.
  Lemma dec_u16 : dec d extract_u16 (num d 2).
  Proof.
    intros q L v b. rewrite u16_iff, u16_number by exact B. unfold num. split.
    - intros (H & ->). exists (q + 2)%nat. split; [auto|]. destruct H as (H & _). auto.
    - intros (e & (H & ->) & _ & ->). auto.
  Qed.
  Lemma number1 q v : number_at d q 1 v <-> nth_error d q = Some v.
  Proof.
    clear B. unfold number_at. split.
    - intros (L & ->). destruct (nth_some d q) as (a & E); [lia|]. rewrite E. f_equal. apply nth_error_split in E. destruct E as (l1 & l2 & -> & <-).
      change (a :: l2) with ([a] ++ l2). change 1%nat with (length [a]). rewrite slice_exact. reflexivity.
    - intros E. assert (L : (q < length d)%nat) by (apply nth_error_Some; congruence). split; [lia|].
      apply nth_error_split in E. destruct E as (l1 & l2 & -> & <-).
      change (v :: l2) with ([v] ++ l2). change 1%nat with (length [v]). rewrite slice_exact. reflexivity.
  Qed.
  Lemma dec_u8 : dec d extract_u8 (num d 1).
  Proof.
    intros q L v b. rewrite u8_iff, <- number1 by exact B. unfold num. split.
    - intros (H & ->). exists (q + 1)%nat. split; [auto|]. destruct H as (H & _). auto.
    - intros (e & (H & ->) & _ & ->). auto.
  Qed.
  Lemma dec_u32 : dec d extract_u32 (num d 4).
  Proof. apply dec_number. Qed.
  Lemma dec_lift {A} (dom : A -> Prop) n (p : P N) bound code try err : dec d p (num d n) -> faithful dom bound code try err ->
    dec d (x <- p ;; lift (try x)) (fun v q e => dom v /\ num d n (code v) q e).
  Proof.
    intros D (F1 & F2 & F3) q L v b. rewrite bind_iff. split.
    - intros (a & b1 & E1 & E2). apply D in E1; [|exact L]. destruct E1 as (e & H & Le & ->). unfold lift in E2. injection E2 as E2 <-.
      apply F2 in E2. destruct E2 as (Dv & <-). eauto.
    - intros (e & (Dv & H) & Le & ->). exists (code v), (mkbuf d e). split; [apply D; [exact L|eauto]|]. unfold lift. rewrite (proj2 (F1 v Dv)). reflexivity.
  Qed.
  Lemma dec_u8_as {A} bound (code : A -> N) try err : faithful any bound code try err -> dec d (extract_u8_as try) (fun v => num d 1 (code v)).
  Proof. intros F. eapply dec_ext; [|eapply (dec_lift any 1); [apply dec_u8|exact F]]. intros v q e. unfold any. tauto. Qed.
  Lemma dec_u16_dom {A} dom bound (code : A -> N) try err : faithful dom bound code try err ->
    dec d (extract_u16_as try) (fun v q e => dom v /\ num d 2 (code v) q e).
  Proof. intros F. eapply (dec_lift dom 2); [apply dec_u16|exact F]. Qed.
  Lemma dec_u16_as {A} bound (code : A -> N) try err : faithful any bound code try err -> dec d (extract_u16_as try) (fun v => num d 2 (code v)).
  Proof. intros F. eapply dec_ext; [|eapply dec_u16_dom; exact F]. intros v q e. unfold any. tauto. Qed.
  Lemma dec_rest : dec d extract_rest (rest d).
  Proof.
    intros q L v b. unfold extract_rest. rewrite bytes_iff. unfold remaining, rest, slice. cbn [data pos]. rewrite <- skipn_length, firstn_all, skipn_length.
    split.
    - intros (_ & -> & ->). exists (length d). split; [auto|]. split; [lia|]. f_equal. lia.
    - intros (e & (-> & ->) & _ & ->). split; [lia|]. split; [reflexivity|]. f_equal. lia.
  Qed.
  Lemma dec_name : dec d extract_fqdn (name d).
  Proof.
    intros q L v b. unfold name. split.
    - intros E. pose proof (fqdn_end _ _ _ _ B L E) as (_ & P). apply name_got in E; [|assumption..]. destruct E as (k & NA & ->). cbn [pos] in P.
      exists k. split; [exact NA|]. split; [lia|reflexivity].
    - intros (e & NA & _ & ->). apply (extract_fqdn_iff d q _ _ B). exact NA.
  Qed.
  Lemma dec_str : dec d extract_character_string (str d).
  Proof.
    intros q L v b. rewrite char_string_iff by exact B. unfold str. split; intros (e & H); exists e.
    - destruct H as (H & ->). pose proof (string_at_end _ _ _ _ H). split; [exact H|]. split; [lia|reflexivity].
    - tauto.
  Qed.
  Lemma dec_text : dec d extract_string (text_str d).
  Proof.
    intros q L v b. rewrite string_iff by exact B. unfold text_str, str. split.
    - intros (T & e & H & ->). pose proof (string_at_end _ _ _ _ H). exists e. split; [auto|]. split; [lia|reflexivity].
    - intros (e & (H & T) & _ & ->). split; [exact T|]. eauto.
  Qed.
  Lemma dec_types c : dec d (types_try_from c) (bitmaps d c).
  Proof.
    intros q L v b. rewrite types_iff by assumption. unfold bitmaps. split.
    - intros (ws & H1 & H2 & H3 & H4 & ->). exists (length d). split; [exists ws; auto 8|auto].
    - intros (e & (ws & H1 & H2 & H3 & H4 & ->) & _ & ->). exists ws. auto 8.
  Qed.
  Lemma dec_sized : dec d (n <- extract_u16 ;; extract_bytes (N.to_nat n)) (sized d).
  Proof.
    eapply dec_ext; [|apply dec_bind; [apply dec_u16|intros a; apply dec_bytes]]. intros v q e. cbv beta. unfold sized. split.
    - intros (n & m & H & (O & E) & _). exists m. rewrite E, N2Nat.id. auto.
    - intros (m & H & O). exists (N.of_nat (length v)), m. split; [exact H|]. split; [split; [exact O|apply eq_sym, Nat2N.id]|].
      apply octets_is in O. destruct H as ((H & _) & ->). lia.
  Qed.
End Pieces.

(** ** The parsers *)
(* breaks [dec d (x <- p ;; ...) _] up *)
Ltac pieces_of B :=
  lazymatch goal with
  | |- dec _ (bind _ _) _ => apply dec_bind; [pieces_of B|intros ?; pieces_of B]
  | |- dec _ (ret _) _ => apply dec_ret
  | |- dec _ extract_u8 _ => apply dec_u8, B
  | |- dec _ extract_u16 _ => apply dec_u16, B
  | |- dec _ extract_u32 _ => apply dec_u32
  | |- dec _ extract_fqdn _ => apply dec_name, B
  | |- dec _ extract_rest _ => apply dec_rest
  | |- dec _ extract_character_string _ => apply dec_str, B
  | |- dec _ extract_string _ => apply dec_text, B
  | |- dec _ (extract_bytes _) _ => apply dec_bytes
  | |- dec _ (types_try_from _) _ => apply dec_types, B
  | |- dec _ (extract_u8_as _) _ => eapply dec_u8_as; [exact B|first [apply alg_faithful|apply fptype_faithful|apply cert_usage_faithful|apply selector_faithful
      |apply matching_faithful|apply salg_faithful|apply digest_type_faithful]]
  | |- dec _ (extract_u16_as (rtype_try_from _)) _ => eapply dec_u16_dom; [exact B|apply rtype_faithful]
  | |- dec _ (extract_u16_as tkmode_try_from) _ => eapply dec_u16_dom; [exact B|apply tkmode_faithful]
  | |- dec _ (extract_u16_as tkerr_try_from) _ => eapply dec_u16_dom; [exact B|apply tkerr_faithful]
  | |- dec _ (extract_u16_as _) _ => eapply dec_u16_as; [exact B|first [apply idtype_faithful|apply tserr_faithful]]
  end.
(** Every piece ends inside the data. *)
Lemma num_in d w v q e : num d w v q e -> (e <= length d)%nat.
Proof. intros ((L & _) & ->). exact L. Qed.
Lemma name_in d f q e : name d f q e -> (e <= length d)%nat.
Proof. intros H. apply (name_at_end _ _ _ _ H). Qed.
Lemma str_in d s q e : str d s q e -> (e <= length d)%nat.
Proof. intros H. apply (string_at_end _ _ _ _ H). Qed.
Lemma octets_in d s q e : octets d s q e -> (e <= length d)%nat.
Proof. intros H. apply octets_is in H. lia. Qed.
Lemma rest_in d s q e : rest d s q e -> (e <= length d)%nat.
Proof. intros (_ & ->). apply le_n. Qed.
Lemma bitmaps_in d c ts q e : bitmaps d c ts q e -> (e <= length d)%nat.
Proof. intros (ws & _ & _ & _ & _ & ->). apply le_n. Qed.
Lemma sized_in d s q e : sized d s q e -> (e <= length d)%nat.
Proof. intros (m & _ & O). apply (octets_in _ _ _ _ O). Qed.
Ltac inside :=
  match goal with
  | H : num _ _ _ _ ?m |- (?m <= _)%nat => apply (num_in _ _ _ _ _ H)
  | H : _ /\ num _ _ _ _ ?m |- (?m <= _)%nat => apply (num_in _ _ _ _ _ (proj2 H))
  | H : name _ _ _ ?m |- (?m <= _)%nat => apply (name_in _ _ _ _ H)
  | H : str _ _ _ ?m |- (?m <= _)%nat => apply (str_in _ _ _ _ H)
  | H : text_str _ _ _ ?m |- (?m <= _)%nat => apply (str_in _ _ _ _ (proj1 H))
  | H : octets _ _ _ ?m |- (?m <= _)%nat => apply (octets_in _ _ _ _ H)
  | H : octets _ _ _ ?m /\ _ |- (?m <= _)%nat => apply (octets_in _ _ _ _ (proj1 H))
  | H : rest _ _ _ ?m |- (?m <= _)%nat => apply (rest_in _ _ _ _ H)
  | H : bitmaps _ _ _ _ ?m |- (?m <= _)%nat => apply (bitmaps_in _ _ _ _ _ H)
  | H : sized _ _ _ ?m |- (?m <= _)%nat => apply (sized_in _ _ _ _ H)
  end.
(* opens the hypothesis and gives every piece of the goal *)
Ltac open H := repeat (destruct H as (? & ? & ? & H & _)).
Ltac open_laid H := repeat match type of H with exists _, _ => destruct H as (? & ? & H) end.
Ltac fill :=
  lazymatch goal with
  | |- exists _ _, _ /\ _ /\ (_ <= _)%nat => do 2 eexists; split; [eassumption|split; [fill|inside]]
  | |- exists _, _ /\ _ => eexists; split; [eassumption|fill]
  | |- _ /\ _ => split; [fill|fill]
  | |- _ => first [assumption|reflexivity]
  end.
Ltac simple_data B :=
  eapply dec_ext; [|pieces_of B]; intros v q e; cbv beta; split;
  [ intros H; open H; destruct H as (<- & <-); cbn [pieces laid]; repeat (eexists; split; [eassumption|]); reflexivity
  | destruct v; cbn; intros H; open_laid H; subst; fill ].
Section Parsers.
  Context (c : cfg) (d : bytes) (B : byte_list d).
  Local Notation piecewise p con := (dec d p (fun x => laid (pieces d c (con x)))).
  Lemma dec_soa : piecewise soa_try_from DSOA.
  Proof. unfold soa_try_from. simple_data B. Qed.
  Lemma dec_wks : piecewise wks_try_from DWKS.
  Proof. unfold wks_try_from. simple_data B. Qed.
  Lemma dec_hinfo : piecewise hinfo_try_from DHINFO.
  Proof. unfold hinfo_try_from. simple_data B. Qed.
  Lemma dec_minfo : piecewise minfo_try_from DMINFO.
  Proof. unfold minfo_try_from. simple_data B. Qed.
  Lemma dec_mx : piecewise mx_try_from DMX.
  Proof. unfold mx_try_from. simple_data B. Qed.
  Lemma dec_loc : piecewise loc_try_from DLOC.
  Proof. unfold loc_try_from. simple_data B. Qed.
  Lemma dec_srv : piecewise srv_try_from DSRV.
  Proof. unfold srv_try_from. simple_data B. Qed.
  Lemma dec_ds : piecewise ds_try_from DDS.
  Proof. unfold ds_try_from. simple_data B. Qed.
  Lemma dec_sshfp : piecewise sshfp_try_from DSSHFP.
  Proof. unfold sshfp_try_from. simple_data B. Qed.
  Lemma dec_rrsig : piecewise (rrsig_try_from c) DRRSIG.
  Proof. unfold rrsig_try_from. simple_data B. Qed.
  Lemma dec_nsec : piecewise (nsec_try_from c) DNSEC.
  Proof. unfold nsec_try_from. simple_data B. Qed.
  Lemma dec_tlsa : piecewise tlsa_try_from DTLSA.
  Proof. unfold tlsa_try_from. simple_data B. Qed.
  Lemma dec_uri : piecewise uri_try_from DURI.
  Proof. unfold uri_try_from. simple_data B. Qed.
  (* one piece only *)
  Lemma laid1 (x : piece) q e : x q e <-> laid [x] q e.
  Proof. cbn [laid]. split; [eauto|]. intros (m & H & <-). exact H. Qed.
  Ltac one := eapply dec_ext; [intros v q e; apply laid1|].
  Lemma dec_a : piecewise a_try_from DA.
  Proof. one. apply dec_u32. Qed.
  Lemma dec_aaaa : piecewise aaaa_try_from DAAAA.
  Proof. one. apply dec_number. Qed.
  Lemma dec_ns : piecewise name_try_from DNS.
  Proof. one. apply dec_name, B. Qed.
  Lemma dec_opaque : piecewise opaque_try_from DNULL.
  Proof. one. apply dec_rest. Qed.
  Lemma dec_eui48 : piecewise eui48_try_from DEUI48.
  Proof. one. apply dec_bytes. Qed.
  Lemma dec_eui64 : piecewise eui64_try_from DEUI64.
  Proof. one. apply dec_bytes. Qed.
  Lemma dec_txt : piecewise txt_try_from DTXT.
  Proof.
    one. intros q L v b. rewrite txt_iff by assumption. unfold entries. split.
    - intros (raw & C & -> & ->). exists (length d). split; [exists raw; split; [auto|apply repaired_all; reflexivity]|auto].
    - intros (e & (raw & (C & ->) & R) & _ & ->). apply repaired_all in R. exists raw. auto.
  Qed.

  (** NAPTR *)
  Lemma flags_in_of s : forall fs, flags_in s fs <-> nflags_of s = fs.
  Proof.
    assert (F : forall o f, In (f, o) iana_nflag <-> nflag_try_from o = Ok f).
    { intros o f. destruct nflag_faithful as (F1 & F2 & _). split.
      - intros I. cbn in I. repeat (destruct I as [I|I]; [injection I as <- <-; reflexivity|]). destruct I.
      - intros E. apply F2 in E. destruct E as (_ & <-). destruct f; cbn; tauto. }
    induction s as [|o s IH]; intros fs; cbn [nflags_of flat_map].
    - split; [intros H; inversion H; reflexivity|intros <-; constructor].
    - fold (nflags_of s). split.
      + intros H. inversion H as [|? ? f fs' I H'|? ? ? N H']; subst.
        * apply F in I. rewrite I. cbn [app]. f_equal. apply IH, H'.
        * destruct (nflag_try_from o) as [f| | |] eqn:E; [exfalso; apply (N f), F, E|..]; apply IH, H'.
      + intros <-. destruct (nflag_try_from o) as [f| | |] eqn:E; cbn [app].
        1: apply a_flag; [apply F, E|apply IH; reflexivity].
        all: apply not_a_flag; [intros f I; apply F in I; congruence|apply IH; reflexivity].
  Qed.
  Lemma naptr_flags_in fs q e : naptr_flags d fs q e -> (e <= length d)%nat.
  Proof. intros (s & S & _). apply (str_in _ _ _ _ S). Qed.
  Lemma dec_naptr : piecewise naptr_try_from DNAPTR.
  Proof.
    unfold naptr_try_from. eapply dec_ext; [|pieces_of B]; intros v q e; cbv beta; split.
    - intros H. open H. destruct H as (<- & <-). cbn [pieces laid na_order na_pref na_flags na_service na_regexp na_repl].
      do 2 (eexists; split; [eassumption|]). eexists; split; [eexists; split; [eassumption|apply flags_in_of; reflexivity]|].
      repeat (eexists; split; [eassumption|]). reflexivity.
    - destruct v; cbn; intros H. destruct H as (? & ? & ? & ? & ? & (s & S & F) & H). apply flags_in_of in F. open_laid H. subst. fill.
  Qed.

  (** OPT *)
  Lemma opt_insert_list k v m : map fst (opt_insert k v m) = if in_dec N.eq_dec k (map fst m) then map fst m else map fst m ++ [k].
  Proof.
    induction m as [|[k' v'] m IH]; [reflexivity|]. cbn [opt_insert map fst]. destruct (N.eqb_spec k k') as [->|NE].
    - cbn [map fst]. destruct (in_dec N.eq_dec k' (k' :: map fst m)) as [|NI]; [reflexivity|]. exfalso. apply NI. left. reflexivity.
    - cbn [map fst]. rewrite IH. destruct (in_dec N.eq_dec k (map fst m)) as [I|NI]; destruct (in_dec N.eq_dec k (k' :: map fst m)) as [I'|NI']; try reflexivity.
      + exfalso. apply NI'. right. exact I.
      + exfalso. destruct I' as [->|I']; [apply NE; reflexivity|apply NI, I'].
  Qed.
  Lemma opt_fold_keys es : map fst (fold_left (fun a x => opt_insert (fst x) (snd x) a) es []) = rev (nodup N.eq_dec (rev (map fst es))).
  Proof.
    induction es as [|x es IH] using rev_ind; [reflexivity|]. rewrite fold_left_app, map_app, rev_app_distr. cbn [fold_left map rev app nodup].
    rewrite opt_insert_list, IH. set (l := rev (map fst es)).
    assert (I : In (fst x) (rev (nodup N.eq_dec l)) <-> In (fst x) l) by (rewrite <- in_rev, nodup_In; reflexivity).
    destruct (in_dec N.eq_dec (fst x) (rev (nodup N.eq_dec l))); destruct (in_dec N.eq_dec (fst x) l); tauto || reflexivity.
  Qed.
  Lemma same_map (m : list (N * bytes)) : forall m', NoDup (map fst m) -> map fst m = map fst m' -> (forall x, In x m <-> In x m') -> m = m'.
  Proof.
    induction m as [|[k v] m IH]; intros [|[k' v'] m'] ND K I; try discriminate; [reflexivity|]. cbn [map fst] in *. inversion ND as [|? ? NI ND']; subst.
    injection K as <- K. assert (X : forall (n : list (N * bytes)) w, map fst n = map fst m -> ~ In (k, w) n).
    { intros n w E J. apply NI. rewrite <- E. apply in_map_iff. exists (k, w). auto. }
    assert (v' = v) as ->.
    { destruct (proj1 (I (k, v)) (or_introl eq_refl)) as [E|J]; [congruence|]. exfalso. apply (X m' v); [congruence|exact J]. }
    f_equal. apply IH; [exact ND'|exact K|]. intros y. split; intros J.
    - destruct (proj1 (I y) (or_intror J)) as [<-|J']; [|exact J']. exfalso. apply (X m v); [reflexivity|exact J].
    - destruct (proj2 (I y) (or_intror J)) as [<-|J']; [|exact J']. exfalso. apply (X m' v); [congruence|exact J].
  Qed.
  Lemma dec_opt : piecewise opt_try_from DOPT.
  Proof.
    one. intros q L v b. rewrite opt_iff by assumption. unfold entries. split.
    - intros (es & C & -> & ->). exists (length d). split; [|auto]. exists es. split; [auto|]. split; [apply opt_fold_last|apply opt_fold_keys].
    - intros (e & (es & (C & ->) & I & K) & _ & ->). exists es. split; [exact C|]. split; [|reflexivity]. symmetry.
      apply same_map; [apply opt_fold_last|rewrite opt_fold_keys; auto|]. intros x. rewrite I. apply opt_fold_last.
  Qed.

  (** APL *)
  Lemma land_126 o : o < 256 -> N.land o 126 = o mod 128 / 2 * 2.
  Proof.
    intros H. assert (A : forallb (fun n => N.land (N.of_nat n) 126 =? N.of_nat n mod 128 / 2 * 2) (seq 0 256) = true) by (vm_compute; reflexivity).
    rewrite forallb_forall in A. specialize (A (N.to_nat o)). rewrite N2Nat.id in A. apply N.eqb_eq, A, in_seq. lia.
  Qed.
  Lemma dec_apl : piecewise apl_try_from DAPL.
  Proof.
    unfold apl_try_from. cbv zeta.
    eapply dec_ext; [|apply dec_bind; [apply dec_u16, B|intros fam; apply dec_bind; [apply dec_u8, B|intros pre; apply dec_bind; [apply dec_u8, B|intros o; apply dec_bind; [apply dec_bytes|intros bs;
      instantiate (1 := fun bs v q e => (exists a, (fam = 1 /\ a = AfdV4 (unbe (resize 4 bs)) \/ fam = 2 /\ a = AfdV6 (unbe (resize 16 bs))) /\ mkApl pre (negb (N.land o 128 =? 0)) a = v) /\ q = e)]]]]].
    - intros v q e. cbv beta. split.
      + intros (fam & m1 & H1 & (pre & m2 & H2 & (o & m3 & H3 & (bs & m4 & (H4 & Ln) & ((a & Fa & <-) & <-) & _) & _) & _) & _).
        assert (O : o < 256) by (destruct H3 as (H3 & _); apply number1, (Forall_nth_error _ _ _ _ B) in H3; exact H3).
        assert (m3 = S m2) as -> by (destruct H3 as (_ & ->); lia). rewrite land_126 in Ln by exact O. rewrite land_128, negb_involutive.
        assert (Ln' : N.of_nat (length bs) = o mod 128 / 2 * 2) by (rewrite Ln; apply N2Nat.id).
        destruct Fa as [(-> & ->)|(-> & ->)]; cbn [pieces laid apl_afd apl_prefix apl_n]; exists m1; (split; [exact H1|]); exists m2; (split; [exact H2|]); exists m4;
          (split; [|reflexivity]); exists o, bs; repeat (split; [first [assumption|reflexivity]|]); reflexivity.
      + destruct v as [pre n a]. intros H. assert (G : exists fam w x m1 m2, num d 2 fam q m1 /\ num d 1 pre m1 m2 /\ apl_address d n w x m2 e /\
          (fam = 1 /\ w = 4%nat /\ a = AfdV4 x \/ fam = 2 /\ w = 16%nat /\ a = AfdV6 x)).
        { destruct a as [x|x]; cbn [pieces laid apl_afd apl_prefix apl_n] in H; destruct H as (m1 & H1 & m2 & H2 & m3 & H3 & <-); do 5 eexists; repeat (split; [eassumption|]); auto. }
        destruct G as (fam & w & x & m1 & m2 & H1 & H2 & (o & s & Ho & Hn & Ln & Os & Hx) & G).
        assert (O : o < 256) by (destruct Ho as (Ho & _); apply number1, (Forall_nth_error _ _ _ _ B) in Ho; exact Ho).
        exists fam, m1. split; [exact H1|]. split; [|inside]. exists pre, m2. split; [exact H2|]. split; [|inside]. exists o, (S m2). split; [exact Ho|]. split; [|inside].
        exists s, e. split; [split; [exact Os|rewrite land_126 by exact O; rewrite <- Ln; symmetry; apply Nat2N.id]|]. split; [|inside].
        split; [|reflexivity]. exists a. split; [|rewrite land_128, negb_involutive, Hn; reflexivity].
        destruct G as [(-> & -> & ->)|(-> & -> & ->)]; [left|right]; (split; [reflexivity|]); rewrite Hx; reflexivity.
    - intros q L v b. destruct (N.eq_dec fam 1) as [->|N1]; [|destruct (N.eq_dec fam 2) as [->|N2]].
      1, 2: rewrite (dec_ret d _ q L v b); split; intros (e & (H & <-) & Y); exists q; (split; [|exact Y]); (split; [|reflexivity]).
      1, 3: eexists; split; [|exact H]; auto.
      1, 2: destruct H as (a & [(F & ->)|(F & ->)] & <-); try discriminate; reflexivity.
      assert (E : match fam with 1 => ret (mkApl pre (negb (N.land o 128 =? 0)) (AfdV4 (unbe (resize 4 bs)))) | 2 => ret (mkApl pre (negb (N.land o 128 =? 0)) (AfdV6 (unbe (resize 16 bs))))
        | _ => fail (InvalidAplFamily fam) end = fail (InvalidAplFamily fam)).
      { destruct fam as [|[[?|?|]|[?|?|]|]]; try reflexivity; congruence. }
      rewrite E. unfold fail. split; [discriminate|]. intros (e & ((a & [(F & _)|(F & _)] & _) & _) & _); contradiction.
  Qed.

  (** IPSECKEY *)
  Lemma dec_gateway gt : dec d (match gt with
        | 0 => _ <- extract_u8 ;; ret GwNone
        | 1 => x <- extract_u32 ;; ret (GwV4 x)
        | 2 => x <- extract_bytes 16 ;; ret (GwV6 (unbe x))
        | 3 => f <- extract_fqdn ;; ret (GwDomain f)
        | _ => fail (InvalidIpSecKeyGatewayType gt)
        end) (fun g q e => gateway_type g = gt /\ gateway_at d g q e).
  Proof.
    assert (C : gt = 0 \/ gt = 1 \/ gt = 2 \/ gt = 3 \/ ~ In gt [0; 1; 2; 3]).
    { destruct (in_dec N.eq_dec gt [0; 1; 2; 3]) as [I|NI]; [cbn in I; intuition|tauto]. }
    destruct C as [->|[->|[->|[->|N]]]].
    1, 2, 4: eapply dec_ext; [|pieces_of B]; intros v q e; cbv beta; split;
      [ intros (a & m & H & (<- & <-) & _); split; [reflexivity|]; cbn [gateway_at]; unfold num_such; eauto
      | intros (E & H); destruct v; try discriminate; cbn [gateway_at] in H; try (lazymatch type of H with num_such _ _ _ _ _ => destruct H as (? & _ & H) end); do 2 eexists; split; [exact H|split; [auto|inside]] ].
    - change (dec d (x <- extract_bytes 16;; ret (GwV6 (unbe x))) (fun g q e => gateway_type g = 2 /\ gateway_at d g q e)).
      intros q L v b. rewrite bind_iff. split.
      + intros (x & b1 & E1 & E2). cbn [ret] in E2. injection E2 as <- <-. assert (E : (x <- extract_bytes 16 ;; ret (unbe x)) (mkbuf d q) = (Ok (unbe x), b1)) by (unfold bind; rewrite E1; reflexivity).
        apply dec_number in E; [|exact L]. destruct E as (e & H & Y). exists e. cbn [gateway_type gateway_at]. auto.
      + intros (e & (E & H) & Y). destruct v; try discriminate. cbn [gateway_at] in H. assert (E' : (x <- extract_bytes 16 ;; ret (unbe x)) (mkbuf d q) = (Ok a, b)) by (apply dec_number; eauto).
        apply bind_iff in E'. destruct E' as (x & b1 & E1 & E2). cbn [ret] in E2. injection E2 as <- <-. exists x, b1. auto.
    - replace (match gt with
        | 0 => _ <- extract_u8 ;; ret GwNone
        | 1 => x <- extract_u32 ;; ret (GwV4 x)
        | 2 => x <- extract_bytes 16 ;; ret (GwV6 (unbe x))
        | 3 => f <- extract_fqdn ;; ret (GwDomain f)
        | _ => fail (InvalidIpSecKeyGatewayType gt)
        end) with (@fail gateway (InvalidIpSecKeyGatewayType gt)) by (destruct gt as [|[[?|?|]|[?|?|]|]]; try reflexivity; cbn in N; tauto).
      eapply dec_ext; [|apply dec_fail]. intros v q e. split; [intros []|]. intros (E & _). apply N. rewrite <- E. destruct v; cbn; tauto.
  Qed.
  Lemma gateway_in g q e : gateway_at d g q e -> (e <= length d)%nat.
  Proof. destruct g; cbn [gateway_at]; [intros (x & _ & H)|intros H..]; inside. Qed.
  Lemma dec_ipseckey : piecewise ipseckey_try_from DIPSECKEY.
  Proof.
    unfold ipseckey_try_from. eapply dec_ext; [|apply dec_bind; [pieces_of B|intros ?; apply dec_bind; [pieces_of B|intros ?; apply dec_bind; [pieces_of B|intros ?; apply dec_bind; [apply dec_gateway|intros ?; pieces_of B]]]]].
    intros v q e; cbv beta; split.
    - intros H. open H. destruct H as (<- & <-). cbn [pieces laid ip_prec ip_gw ip_alg ip_pk].
      match goal with H : gateway_type _ = _ /\ _ |- _ => destruct H as (<- & ?) end. repeat (eexists; split; [eassumption|]). reflexivity.
    - destruct v as [v1 v2 v3 v4]; cbn [pieces laid ip_prec ip_gw ip_alg ip_pk]; intros H; open_laid H; subst.
      match goal with H : gateway_at _ _ _ _ |- _ => pose proof (gateway_in _ _ _ H) end.
      do 3 (do 2 eexists; split; [eassumption|]; split; [|inside]). do 2 eexists. split; [split; [reflexivity|eassumption]|]. split; [fill|assumption].
  Qed.

  (** DNSKEY, DHCID *)
  Lemma land_256 f : negb (N.land f 256 =? 0) = N.testbit f 8.
  Proof.
    destruct (N.testbit f 8) eqn:T; destruct (N.eqb_spec (N.land f 256) 0) as [Z|NZ]; try reflexivity; exfalso.
    - assert (X : N.testbit (N.land f 256) 8 = true) by (rewrite N.land_spec, T; reflexivity). rewrite Z in X. discriminate.
    - apply NZ. apply N.bits_inj. intros i. rewrite N.bits_0, N.land_spec. change 256 with (2 ^ 8). destruct (N.eq_dec i 8) as [->|NE]; [rewrite T; reflexivity|].
      rewrite N.pow2_bits_false by congruence. apply andb_false_r.
  Qed.
  Lemma land_1 f : negb (N.land f 1 =? 0) = N.testbit f 0.
  Proof. change 1 with (N.ones 1) at 1. rewrite N.land_ones, N.bit0_odd. change (2 ^ 1) with 2. rewrite <- N.bit0_mod. rewrite N.bit0_odd. destruct (N.odd f); reflexivity. Qed.
  Lemma dec_dnskey : piecewise dnskey_try_from DDNSKEY.
  Proof.
    unfold dnskey_try_from. eapply dec_ext; [|pieces_of B]; intros v q e; cbv beta; split.
    - intros H. open H. destruct H as (<- & <-). cbn [pieces laid dk_zone dk_sep dk_protocol dk_alg dk_pk].
      eexists; split; [eexists; split; [|eassumption]; split; [apply land_256|apply land_1]|].
      repeat (eexists; split; [eassumption|]). reflexivity.
    - destruct v as [v1 v2 v3 v4 v5]; cbn [pieces laid dk_zone dk_sep dk_protocol dk_alg dk_pk]. intros (m & (f & (-> & ->) & F) & H). rewrite <- land_256, <- land_1. open_laid H. subst. fill.
  Qed.
  Lemma dec_dhcid : piecewise dhcid_try_from DDHCID.
  Proof.
    unfold dhcid_try_from. eapply dec_ext; [|apply dec_bind; [pieces_of B|intros i; apply dec_bind; [pieces_of B|intros o;
      instantiate (1 := fun o v q e => o = 1 /\ dhcid_code v = i /\ rest d (dhcid_digest v) q e)]]].
    - intros v q e; cbv beta; split.
      + intros (i & m & H & (o & m' & H' & (-> & <- & R) & _) & _). cbn [pieces laid]. repeat (eexists; split; [eassumption|]). reflexivity.
      + cbn [pieces laid]. intros H; open_laid H; subst. fill.
    - intros q L v b. destruct (N.eqb_spec o 1) as [->|NE]; cbn [negb].
      + rewrite bind_iff. split.
        * intros (x & b1 & E1 & E2). cbn [ret] in E2. injection E2 as <- <-. apply dec_rest in E1; [|exact L]. destruct E1 as (e & R & Y). exists e. cbn [dhcid_code dhcid_digest]. auto.
        * intros (e & (_ & <- & R) & Y). exists (dhcid_digest v), b. split; [apply dec_rest; eauto|]. destruct v; reflexivity.
      + unfold fail. split; [discriminate|]. intros (e & (F & _) & _). contradiction.
  Qed.

  (** HIP *)
  Lemma dec_names : dec d (loop_remaining names_step []) (entries d (fun p f e => name d f p e)).
  Proof.
    intros q L v b. rewrite (loop_iff d names_step (fun p f e => name d f p e) (fun acc f => acc ++ [f])); [| |exact L].
    - assert (F : forall l acc, fold_left (fun (acc : list fqdn) f => acc ++ [f]) l acc = acc ++ l).
      { induction l as [|f l IH]; intros acc; cbn [fold_left]; [symmetry; apply app_nil_r|]. rewrite IH, <- app_assoc. reflexivity. }
      unfold entries. split.
      + intros (xs & C & -> & ->). exists (length d). rewrite F. auto.
      + intros (e & (C & ->) & _ & ->). exists v. rewrite F. auto.
    - intros a p v' b' Lp. unfold names_step. rewrite bind_iff. split.
      + intros (f & b1 & E1 & E2). cbn [ret] in E2. injection E2 as <- <-. apply dec_name in E1; [|assumption..]. destruct E1 as (e & N & Le & ->).
        exists f, e. split; [exact N|]. split; [pose proof (name_at_end _ _ _ _ N); lia|auto].
      + intros (f & e & N & Le & -> & ->). exists f, (mkbuf d e). split; [|reflexivity]. apply dec_name; [assumption..|]. exists e. split; [exact N|]. split; [lia|reflexivity].
  Qed.
  Lemma dec_servers a hit pk : dec d (fun b => if (remaining b =? 0)%nat then (Ok (mkHip a hit pk None), b)
      else (ns <- loop_remaining names_step [] ;; ret (mkHip a hit pk (Some ns))) b) (fun v q e => exists rv, mkHip a hit pk rv = v /\ servers d rv q e).
  Proof.
    intros q L v b. unfold remaining. cbn [data pos]. destruct (Nat.eqb_spec (length d - q) 0) as [Z|NZ].
    - assert (q = length d) as -> by lia. split.
      + intros E. injection E as <- <-. exists (length d). split; [exists None; cbn [servers]; auto|auto].
      + intros (e & (rv & <- & H) & _ & ->). destruct rv as [l|]; cbn [servers] in H; [lia|]. destruct H as (_ & ->). reflexivity.
    - rewrite bind_iff. split.
      + intros (ns & b1 & E1 & E2). cbn [ret] in E2. injection E2 as <- <-. apply dec_names in E1; [|exact L]. destruct E1 as (e & H & Y). exists e.
        split; [exists (Some ns); split; [reflexivity|]; cbn [servers]; split; [lia|exact H]|exact Y].
      + intros (e & (rv & <- & H) & Y). destruct rv as [l|]; cbn [servers] in H; [|lia]. exists l, b. split; [|reflexivity]. apply dec_names; [exact L|]. exists e. split; [apply H|exact Y].
  Qed.
  Lemma servers_in rv q e : servers d rv q e -> (e <= length d)%nat.
  Proof. destruct rv; cbn [servers]; [intros (_ & _ & ->)|intros (_ & ->)]; apply le_n. Qed.
  Lemma dec_hip : piecewise hip_try_from DHIP.
  Proof.
    unfold hip_try_from. eapply dec_ext; [|do 5 (apply dec_bind; [pieces_of B|intros ?]); apply dec_servers].
    intros v q e; cbv beta; split.
    - intros (hl & m1 & H1 & (a & m2 & H2 & (pl & m3 & H3 & (hit & m4 & (H4 & L4) & (pk & m5 & (H5 & L5) & (rv & <- & H6) & _) & _) & _) & _) & _).
      cbn [pieces laid hip_alg hip_hit hip_pk hip_rv]. rewrite L4, L5, !N2Nat.id. repeat (eexists; split; [eassumption|]). reflexivity.
    - destruct v as [v1 v2 v3 v4]; cbn [pieces laid hip_alg hip_hit hip_pk hip_rv]; intros H; open_laid H; subst.
      do 3 (do 2 eexists; split; [eassumption|]; split; [|inside]). do 2 (do 2 eexists; split; [split; [eassumption|symmetry; apply Nat2N.id]|]; split; [|inside]).
      eexists. split; [reflexivity|assumption].
  Qed.

  (** CSYNC, TKEY, TSIG, CAA *)
  Lemma dec_csync_flags : dec d (extract_u16_as csync_flags_try_from) (fun f q e => num d 2 f q e /\ f < 4).
  Proof.
    intros q L v b. rewrite u16_as_iff by exact B. destruct csync_faithful as (F1 & F2 & _). split.
    - intros (n & U & E & ->). pose proof (u16_at_end _ _ _ U). apply F2 in E; [|apply (u16_at_lt _ _ _ U)]. destruct E as (-> & Ln). exists (q + 2)%nat.
      split; [split; [split; [apply u16_number; assumption|reflexivity]|exact Ln]|auto].
    - intros (e & ((U & ->) & Ln) & _ & ->). exists v. split; [apply u16_number; assumption|]. split; [apply F1, Ln|reflexivity].
  Qed.
  Lemma dec_csync : piecewise (csync_try_from c) DCSYNC.
  Proof.
    unfold csync_try_from. eapply dec_ext; [|apply dec_bind; [pieces_of B|intros ?; apply dec_bind; [apply dec_csync_flags|intros ?; pieces_of B]]].
    intros v q e; cbv beta; split.
    - intros H; open H; destruct H as (<- & <-); cbn [pieces laid]; repeat (eexists; split; [eassumption|]); reflexivity.
    - destruct v as [v1 v2 v3]; cbn [pieces laid cs_serial cs_flags cs_types]; intros H; open_laid H; subst.
      do 2 eexists; split; [eassumption|]. split; [|inside]. do 2 eexists. split; [eassumption|]. split; [fill|]. match goal with H : num _ _ _ _ _ /\ _ |- _ => destruct H end. inside.
  Qed.
  Lemma sized_of n s q m e : num d 2 n q m -> octets d s m e -> length s = N.to_nat n -> sized d s q e.
  Proof. intros H O L. exists m. rewrite L, N2Nat.id. auto. Qed.
  Ltac sizes := repeat match goal with
    | H : num d 2 ?n ?q ?m, O : octets d ?s ?m ?e /\ length ?s = N.to_nat ?n |- _ =>
        pose proof (sized_of n s q m e H (proj1 O) (proj2 O)); clear H O end.
  Ltac unsize := repeat match goal with H : sized d ?s _ _ |- _ =>
    let m := fresh "m" in let H1 := fresh "H" in let H2 := fresh "O" in destruct H as (m & H1 & H2);
    pose proof (conj H2 (eq_sym (Nat2N.id (length s))));
    pose proof (octets_in _ _ _ _ H2); clear H2 end.
  Lemma dec_tkey : piecewise tkey_try_from DTKEY.
  Proof.
    unfold tkey_try_from. eapply dec_ext; [|pieces_of B]; intros v q e; cbv beta; split.
    - intros H; open H; destruct H as (<- & <-). sizes. cbn [pieces laid]; repeat (eexists; split; [eassumption|]); reflexivity.
    - destruct v as [v1 v2 v3 v4 v5 v6 v7]; cbn [pieces laid tk_alg tk_inc tk_exp tk_mode tk_err tk_key tk_other]; intros H; open_laid H; subst. unsize. fill.
  Qed.
  Lemma unbe_zeros t : unbe ([0; 0] ++ t) = unbe t.
  Proof. reflexivity. Qed.
  Lemma dec_tsig : piecewise tsig_try_from DTSIG.
  Proof.
    unfold tsig_try_from. eapply dec_ext; [|pieces_of B]; intros v q e; cbv beta; split.
    - intros H; open H; destruct H as (<- & <-). sizes. cbn [pieces laid ts_alg ts_time ts_fudge ts_mac ts_id ts_err ts_other]. rewrite unbe_zeros.
      match goal with H : octets d ?s ?q ?e /\ length ?s = 6%nat |- _ => assert (T : num d 6 (unbe s) q e) by
        (destruct H as (O & L); apply octets_is in O; rewrite L in O; destruct O as (O & S & ->); split; [split; [exact O|rewrite <- S; reflexivity]|reflexivity]) end.
      repeat (eexists; split; [eassumption|]); reflexivity.
    - destruct v as [al ti fu mac id er ot]; cbn [pieces laid ts_alg ts_time ts_fudge ts_mac ts_id ts_err ts_other]; intros H; open_laid H; subst. unsize.
      match goal with H : num d 6 ?t ?q ?e |- _ => assert (T : exists s, (octets d s q e /\ length s = 6%nat) /\ unbe ([0; 0] ++ s) = t) by
        (destruct H as ((O & ->) & ->); exists (slice d q 6); rewrite slice_length by exact O; split; [split; [apply octets_slice, O|reflexivity]|reflexivity]) end.
      destruct T as (s & T & <-). fill.
  Qed.
  Lemma dec_caa : piecewise caa_try_from DCAA.
  Proof.
    intros q L v b. split.
    - unfold caa_try_from. intros E. apply bind_iff in E. destruct E as (f & b1 & E1 & E). apply dec_u8 in E1; [|assumption..]. destruct E1 as (m & F & Lm & ->).
      apply bind_iff in E. destruct E as (n & b1 & E1 & E). destruct (N.eqb_spec n 0) as [|NZ]; [discriminate|].
      apply bind_iff in E. destruct E as (t & b2 & E2 & E). apply bind_iff in E. destruct E as (w & b3 & E3 & E). cbn [ret] in E. injection E as <- <-.
      assert (H : extract_character_string (mkbuf d m) = (Ok t, b2)) by (apply bind_iff; eauto). apply dec_str in H; [|assumption..]. destruct H as (m2 & St & L2 & ->).
      apply dec_rest in E3; [|exact L2]. destruct E3 as (e & R & Le & ->). exists e. split; [|auto].
      cbn [pieces laid caa_critical caa_tag caa_value]. exists m. split; [exists f; split; [rewrite land_128, negb_involutive; reflexivity|exact F]|].
      exists m2. split; [exists t; split; [|split; [exact St|apply repaired_iff; reflexivity]]|]. 2: exists e; auto.
      intros ->. apply NZ. apply u8_iff in E1; [|exact B]. destruct St as (O & _). unfold octet_at in O. destruct E1 as (E1 & _). cbn [length] in O. change (N.of_nat 0) with 0 in O. congruence.
    - cbn [pieces laid]. intros (e & (m & (f & Fc & F) & m2 & (raw & NE & St & Ft) & m3 & R & <-) & Le & ->). apply repaired_iff in Ft. symmetry in Ft.
      assert (E : extract_character_string (mkbuf d m) = (Ok raw, mkbuf d m2)) by (apply dec_str; [exact B|apply (num_in _ _ _ _ _ F)|]; exists m2; split; [exact St|]; split; [inside|reflexivity]).
      apply bind_iff in E. destruct E as (n & b1 & E1 & E2). unfold caa_try_from. apply bind_iff. exists f, (mkbuf d m). split; [apply dec_u8; [exact B|exact L|]; exists m; split; [exact F|]; split; [inside|reflexivity]|].
      apply bind_iff. exists n, b1. split; [exact E1|]. destruct (N.eqb_spec n 0) as [->|NZ].
      { exfalso. apply NE. apply u8_iff in E1; [|exact B]. destruct St as (O & _). unfold octet_at in O. destruct E1 as (E1 & _). rewrite E1 in O. injection O as O.
        destruct raw; [reflexivity|discriminate]. }
      apply bind_iff. exists raw, (mkbuf d m2). split; [exact E2|]. apply bind_iff. exists (caa_value v), (mkbuf d m3). split; [apply dec_rest; [inside|]; exists m3; auto|].
      unfold ret. do 2 f_equal. destruct v as [cr tg vl]. cbn [caa_critical caa_tag caa_value] in *. rewrite land_128, negb_involutive. congruence.
  Qed.
  Lemma dec_svcb : allocatable d -> piecewise (svcb_try_from c) DSVCB.
  Proof.
    intros A q L v b. rewrite svcb_iff by assumption. cbn [pieces laid]. unfold params. split.
    - intros (k & ps & U & NA & C & S & I & ->). pose proof (u16_at_end _ _ _ U). exists (length d). split; [|auto]. exists (q + 2)%nat.
      split; [split; [apply u16_number; assumption|reflexivity]|]. exists k. split; [exact NA|]. exists (length d). split; [|reflexivity]. exists ps. auto 8.
    - intros (e & (m & (U & ->) & k & NA & e' & (ps & C & -> & S & I) & <-) & _ & ->). exists k, ps. split; [apply u16_number; assumption|]. auto 8.
  Qed.

  (** ** All types *)
  Lemma rdata_iff t : allocatable d -> dec d (rdata_from c t) (fun x q e => rdata_type x = t /\ laid (pieces d c x) q e).
  Proof.
    intros A. destruct t; cbn [rdata_from].
    all: eapply dec_ext; [|apply dec_pmap; first [apply dec_a|apply dec_ns|apply dec_soa|apply dec_opaque|apply dec_wks|apply dec_hinfo|apply dec_minfo|apply dec_mx|apply dec_txt|apply dec_aaaa
      |apply dec_loc|apply dec_srv|apply dec_naptr|apply dec_opt|apply dec_apl|apply dec_ds|apply dec_sshfp|apply dec_ipseckey|apply dec_rrsig|apply dec_nsec|apply dec_dnskey|apply dec_dhcid|apply dec_tlsa
      |apply dec_hip|apply dec_csync|apply (dec_svcb A)|apply dec_eui48|apply dec_eui64|apply dec_tkey|apply dec_tsig|apply dec_uri|apply dec_caa]].
    all: intros v q e; split; [intros (a & -> & H); split; [reflexivity|exact H]|].
    all: intros (T & H); destruct v; try discriminate T; eexists; split; [reflexivity|exact H].
  Qed.
End Parsers.

(** ** Records and packets *)
Lemma byte_list_firstn n d : byte_list d -> byte_list (firstn n d).
Proof. unfold byte_list. intros B. rewrite Forall_forall in *. intros x I. apply B. rewrite <- (firstn_skipn n d). apply in_or_app. left. exact I. Qed.
Lemma record_wire c d p r e : byte_list d -> allocatable d -> record_at c d p r e <-> record_on_wire c d p r e.
Proof.
  intros B A. unfold record_at, record_on_wire.
  assert (X : forall k len, e = (k + 10 + N.to_nat len)%nat -> (e <= length d)%nat ->
    fst (rdata_from c (rr_type r) (mkbuf (firstn e d) (k + 10))) = Ok (rr_data r) <-> rdata_type (rr_data r) = rr_type r /\ data_at c d (k + 10) (rr_data r) e).
  { intros k len E L. assert (Le : length (firstn e d) = e) by (rewrite firstn_length; lia).
    assert (A' : allocatable (firstn e d)) by (unfold allocatable in *; lia).
    pose proof (rdata_iff c (firstn e d) (byte_list_firstn e d B) (rr_type r) A' (k + 10)%nat) as I. rewrite Le in I. specialize (I ltac:(lia) (rr_data r)).
    unfold data_at. split.
    - intros F. destruct (rdata_from c (rr_type r) (mkbuf (firstn e d) (k + 10))) as [x b'] eqn:R. cbn [fst] in F. subst x.
      destruct (proj1 (I b') eq_refl) as (m & (T & H) & Lm & _). split; [exact T|]. exists m. auto.
    - intros (T & m & Lm & H). specialize (I (mkbuf (firstn e d) m)). rewrite (proj2 I); [reflexivity|]. exists m. auto. }
  split; intros (k & v & len & H); exists k, v, len.
  - destruct H as (H1 & H2 & H3 & H4 & H5 & H6 & H7 & H8 & H9 & H10 & H11 & H12). apply (X k len H10 H11) in H12. tauto.
  - destruct H as (H1 & H2 & H3 & HT & H4 & H5 & H6 & H7 & H8 & H9 & H10 & H11 & H12). pose proof (proj2 (X k len H10 H11) (conj HT H12)). tauto.
Qed.
Lemma packet_wire c d p e : byte_list d -> allocatable d -> packet_at c d p e <-> packet_on_wire c d p e.
Proof.
  intros B A. unfold packet_at, packet_on_wire.
  assert (X : forall q rs e', consecutive (record_at c d) q rs e' <-> consecutive (record_on_wire c d) q rs e').
  { intros q rs e'. split; apply consecutive_mono; intros; apply record_wire; assumption. }
  split; intros (H1 & H2 & H3 & H4 & H5 & e1 & e2 & e3 & Q & R1 & R2 & R3); (do 5 (split; [assumption|])); exists e1, e2, e3;
    apply X in R1, R2, R3; auto.
Qed.
