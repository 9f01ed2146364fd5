(** * What is read strictly lies in its place *)
From Coq Require Import Sorting.Sorted Lia ZifyBool ZifyNat ZifyN.
From Verif Require Import Base Utf8 Buffer Fqdn Header Types RDataBasic Bitmap Svcb RDataSec RData Packet BaseFacts Utf8Facts BufferFacts NameSpec FqdnLoop FqdnFacts BitmapFacts NameProps
  CodeSpec CodeFacts RDataSpec RDataFacts ParseFacts HeaderSpec HeaderFacts WireSpec WireFacts SvcbParse FailSpec FailFacts FieldSpec FieldFacts LayoutSpec LayoutFacts LayoutUnique RepairSpec RepairFacts ReadSpec ReadFacts
  RecordSpec PacketFacts InteropSpec InteropFacts InteropPacket StrictSpec.
Ltac Zify.zify_post_hook ::= Z.div_mod_to_equations.

Section Fields.
  Context (d : bytes) (B : byte_list d).
  Lemma slice_bytes p n : byte_list (slice d p n).
  Proof. unfold slice. apply byte_list_firstn. apply Forall_forall. intros x I. apply (proj1 (Forall_forall _ _) B). rewrite <- (firstn_skipn p d). apply in_or_app. right. exact I. Qed.
  Lemma to_reg w (such : N -> Prop) v p e : such v -> num d w v p e -> field_at d (Registered w such) p e.
  Proof.
    intros S ((L & V) & ->). assert (E : length (slice d p w) = w) by (apply slice_length; lia). rewrite <- E at 2. apply at_other; [exact I| |].
    - apply (f_registered _ _ v); [exact S|exact E|apply slice_bytes|symmetry; exact V].
    - split; rewrite E; [exact L|reflexivity].
  Qed.
  Lemma to_number w v p e : num d w v p e -> field_at d (Number w v) p e.
  Proof.
    intros ((L & V) & ->). assert (E : length (slice d p w) = w) by (apply slice_length; lia). rewrite <- E at 2. apply at_other; [exact I| |].
    - constructor; [exact E|apply slice_bytes|symmetry; exact V].
    - split; rewrite E; [exact L|reflexivity].
  Qed.
  Lemma to_octets s p e : octets d s p e -> field_at d (Octets s) p e.
  Proof. intros (O & ->). apply at_other; [exact I|constructor|exact O]. Qed.
  Lemma to_rest s p e : (p <= length d)%nat -> rest d s p e -> field_at d (Octets s) p e.
  Proof.
    intros L (-> & ->). apply to_octets. apply octets_is. rewrite skipn_length. split; [lia|]. split; [|lia]. unfold slice. symmetry. apply firstn_all2. rewrite skipn_length. lia.
  Qed.
  Lemma str_octets s p e : str d s p e -> octets d (N.of_nat (length s) :: s) p e.
  Proof. intros (O & L & S & ->). apply octets_cons; [exact B|exact O|]. split; [split; [lia|exact S]|lia]. Qed.
  Lemma str_length s p e : str d s p e -> (length s <= 255)%nat.
  Proof. intros (O & _). apply nth_error_In in O. apply (proj1 (Forall_forall _ _) B) in O. cbn beta in O. lia. Qed.
  Lemma to_str s p e : str d s p e -> field_at d (CharString s) p e.
  Proof. intros H. pose proof (str_length _ _ _ H). apply str_octets in H. destruct H as (O & ->). apply at_other; [exact I|constructor; assumption|exact O]. Qed.
  Lemma to_prefixed w fs p e : (p + w <= e)%nat -> num d w (N.of_nat (e - (p + w))) p (p + w)%nat -> fields_at d fs (p + w) e -> field_at d (Prefixed w fs) p e.
  Proof.
    intros L ((Ld & V) & _) F. assert (E : length (slice d p w) = w) by (apply slice_length; lia).
    apply (at_prefixed d w fs (slice d p w)); [split; rewrite E; [exact Ld|reflexivity]|exact E|apply slice_bytes|symmetry; exact V|exact F].
  Qed.
  Lemma to_sized s p e : sized d s p e -> field_at d (Prefixed 2 [Octets s]) p e.
  Proof.
    intros (m & Nm & O). pose proof (proj2 Nm). pose proof (proj2 O). subst m. apply to_prefixed; [lia| |eapply at_more; [apply to_octets; exact O|constructor]].
    replace (e - (p + 2))%nat with (length s) by lia. exact Nm.
  Qed.
  Lemma to_map {X} (f : X -> field) (R : nat -> X -> nat -> Prop) : (forall x p m, R p x m -> field_at d (f x) p m) ->
    forall l p e, consecutive R p l e -> fields_at d (map f l) p e.
  Proof. intros H l. induction l as [|x l IH]; intros p e C; inversion C; subst; cbn [map]; [constructor|]. eapply at_more; [apply H; eassumption|apply IH; assumption]. Qed.
  Lemma to_app fs gs : forall p m e, fields_at d fs p m -> fields_at d gs m e -> fields_at d (fs ++ gs) p e.
  Proof. induction fs as [|f fs IH]; intros p m e F G; inversion F; subst; cbn [app]; [exact G|]. eapply at_more; [eassumption|]. eapply IH; eassumption. Qed.
  Lemma to_flat {X} (f : X -> list field) (R : nat -> X -> nat -> Prop) : (forall x p m, R p x m -> fields_at d (f x) p m) ->
    forall l p e, consecutive R p l e -> fields_at d (flat_map f l) p e.
  Proof. intros H l. induction l as [|x l IH]; intros p e C; inversion C; subst; cbn [flat_map]; [constructor|]. eapply to_app; [apply H; eassumption|apply IH; assumption]. Qed.

  (** ** More octets behind do not matter *)
  Lemma strict_more k n p f e : strict_name_at (firstn n d) k p f e -> strict_name_at d k p f e.
  Proof.
    assert (N : forall q (x : N), nth_error (firstn n d) q = Some x -> nth_error d q = Some x /\ (q < n)%nat).
    { intros q x H. assert (q < n)%nat by (assert (q < length (firstn n d))%nat by (apply nth_error_Some; congruence); rewrite firstn_length in *; lia).
      rewrite nth_prefix in H by assumption. auto. }
    induction 1 as [p R|p l ls q Lb H IH|p t ls q P H IH Q].
    - apply strict_root. apply N, R.
    - apply strict_label; [|exact IH]. destruct Lb as (m & E & Lm & Ld & El). exists m. rewrite firstn_length in Ld. split; [apply N, E|]. split; [exact Lm|]. split; [lia|].
      rewrite El. apply slice_prefix. lia.
    - apply (strict_ptr _ _ _ t _ q); [|exact IH|exact Q]. destruct P as (a & b & Ea & La & Eb & Lb & T). exists a, b. apply N in Ea. apply N in Eb. tauto.
  Qed.
  Lemma octets_at_more n p s : octets_at (firstn n d) p s -> octets_at d p s.
  Proof. intros (L & S). rewrite firstn_length in L. split; [lia|]. rewrite slice_prefix in S by lia. exact S. Qed.
  Lemma fields_more n : (forall f p e, field_at (firstn n d) f p e -> field_at d f p e) /\ (forall fs p e, fields_at (firstn n d) fs p e -> fields_at d fs p e).
  Proof.
    apply (fields_at_ind2 (firstn n d) (fun f p e _ => field_at d f p e) (fun fs p e _ => fields_at d fs p e)).
    - intros f p e R. apply at_name. apply strict_more in R. exact R.
    - intros w fs l p e O Ll Bl V F IH. apply (at_prefixed _ _ _ l); try assumption. apply octets_at_more in O. exact O.
    - intros f bs p K F O. apply at_other; try assumption. apply octets_at_more in O. exact O.
    - intros p. constructor.
    - intros f fs p m e F IF G IG. eapply at_more; eassumption.
  Qed.
End Fields.

(** ** Each type *)
Section Types.
  Context (c : cfg) (w : bytes) (B : byte_list w) (q : nat) (Lq : (q <= length w)%nat).
  Definition names_strict (t : rtype) : Prop := forall p f e, name_place w t q p -> name_at w 191 p f e -> rfc_name_at w p f e.
  Lemma to_name t f p e p' : names_strict t -> name w f p e -> name_place w t q p' -> p = p' -> field_at w (DomainName f) p e.
  Proof. intros N H P ->. apply at_name. apply N; assumption. Qed.
  Lemma num_end v k p e : num w k v p e -> e = (p + k)%nat.
  Proof. intros (_ & ->). reflexivity. Qed.
  Ltac ends := repeat match goal with
    | H : num w _ _ _ ?e |- _ => lazymatch goal with _ : (e <= length w)%nat |- _ => fail | _ => pose proof (num_in _ _ _ _ _ H); pose proof (num_end _ _ _ _ H) end
    | H : name w _ _ ?e |- _ => lazymatch goal with _ : (e <= length w)%nat |- _ => fail | _ => pose proof (name_in _ _ _ _ H) end
    | H : str w _ _ ?e |- _ => lazymatch goal with _ : (e <= length w)%nat |- _ => fail | _ => pose proof (str_in _ _ _ _ H) end
    | H : octets w _ _ ?e |- _ => lazymatch goal with _ : (e <= length w)%nat |- _ => fail | _ => pose proof (octets_in _ _ _ _ H) end
    | H : sized w _ _ ?e |- _ => lazymatch goal with _ : (e <= length w)%nat |- _ => fail | _ => pose proof (sized_in _ _ _ _ H) end
    end.
  Ltac give := first [apply to_number; [exact B|eassumption] | apply to_str; [exact B|eassumption] | apply to_sized; [exact B|eassumption] | apply to_octets; eassumption
    | apply to_rest; [lia|eassumption]
    | eapply to_reg; [exact B| |eassumption]; first [solve [unfold number_in; match goal with |- In (?x, _) _ => destruct x; cbn; tauto end]
        | apply iana_types_code]
    | eapply to_name; [eassumption|eassumption|apply first_thing; cbn; tauto|lia]
    | eapply to_name; [eassumption|eassumption|eapply second_name; [cbn; tauto|eassumption]|reflexivity]
    | eapply to_name; [eassumption|eassumption|apply after_number; cbn; tauto|lia]
    | eapply to_name; [eassumption|eassumption|apply after_three_numbers|lia]
    | eapply to_name; [eassumption|eassumption|apply signer|lia]].
  Ltac put := eapply at_more; [give|].
  Ltac puts := repeat put; try (apply at_end).
  Ltac opened H := cbn [pieces laid] in H; open_laid H; try subst; ends.
  Lemma strict_simple x : names_strict (rdata_type x) -> laid (pieces w c x) q (length w) ->
    match x with
    | DTXT _ | DNAPTR _ | DOPT _ | DAPL _ | DDS _ | DCDS _ | DSSHFP _ | DIPSECKEY _ | DHIP _ | DNSEC _ | DCSYNC _ | DDNSKEY _ | DCDNSKEY _ | DCAA _ | DSVCB _ => True
    | _ => fields_at w (rfc_fields x) q (length w)
    end.
  Proof.
    intros N H. destruct x; try exact I; cbn [rdata_type] in N; opened H; cbn [rfc_fields]; try (puts; fail).
    all: repeat match goal with H : _ /\ _ |- _ => destruct H end; ends; try (puts; fail).
    do 3 put. eapply at_more; [eapply to_reg; [exact B| |eassumption]|eapply at_more; [eapply to_reg; [exact B| |eassumption]|puts]].
    - destruct (tk_mode x); cbn; auto 8.
    - destruct (tk_err x); cbn; auto 10.
  Qed.

  Lemma strict_txt l : laid (pieces w c (DTXT l)) q (length w) -> (forall raw, consecutive (string_at w) q raw (length w) -> Forall is_text raw) -> fields_at w (map CharString l) q (length w).
  Proof.
    intros H T. cbn [pieces laid] in H. destruct H as (m & (raw & (C & E) & R) & Em). apply repaired_all in R. subst l. rewrite E in C. apply (to_map w CharString (string_at w)).
    - intros x p e S. apply (to_str w B). exact S.
    - specialize (T _ C). replace (map utf8_lossy raw) with raw; [exact C|]. clear - T. induction T as [|s raw Hs T IH]; [reflexivity|]. cbn [map]. rewrite <- IH. f_equal. symmetry. apply lossy_spec, Hs.
  Qed.
  Lemma all_flags s fs : flags_in s fs -> Forall (fun o => exists f, In (f, o) iana_nflag) s -> forall p e, octets w s p e -> fields_at w (map (fun f => Registered 1 (number_in iana_nflag f)) fs) p e.
  Proof.
    induction 1 as [|o s f fs I F IH|o s fs NI F IH]; intros A p e O.
    - destruct O as (_ & ->). cbn [map length]. replace (p + 0)%nat with p by lia. constructor.
    - inversion A; subst. destruct O as (O & ->). apply octet_first in O. destruct O as (E & O). cbn [map length]. eapply at_more.
      + apply (to_reg w B 1 _ o p (p + 1)%nat); [exact I|]. split; [apply number1, E|reflexivity].
      + apply IH; [assumption|]. split; [exact O|lia].
    - inversion A as [|? ? (f & If) ?]; subst. destruct (NI f If).
  Qed.
  Lemma strict_naptr x : names_strict NAPTR -> laid (pieces w c (DNAPTR x)) q (length w) -> (forall s e, string_at w (q + 4) s e -> Forall (fun o => exists f, In (f, o) iana_nflag) s) ->
    fields_at w (rfc_fields (DNAPTR x)) q (length w).
  Proof.
    intros N H T. opened H. cbn [rfc_fields]. match goal with H : naptr_flags _ _ _ _ |- _ => destruct H as (s & Ss & Fs) end. match goal with H : text_str _ _ _ _ |- _ => destruct H as (Sr & Tr) end. ends.
    put. put. pose proof (str_octets w B _ _ _ Ss) as (O & Ee). apply octet_first in O. destruct O as (E & O). cbn [length] in Ee. eapply at_more; [|put; put; eapply at_more; [|constructor]].
    - apply (to_prefixed w B 1); [lia| |].
      + split; [|reflexivity]. apply number1. rewrite E. do 2 f_equal. lia.
      + apply (all_flags s); [exact Fs| |split; [exact O|lia]]. apply (T s x2). replace (q + 4)%nat with x1 by lia. exact Ss.
    - match goal with H : name w (na_repl x) _ _ |- _ => eapply (to_name NAPTR); [exact N|exact H| |] end.
      + destruct Ss as (O1 & L1 & _ & E1). match goal with H : str w (na_service x) _ _ |- _ => destruct H as (O2 & L2 & _ & E2) end. destruct Sr as (O3 & L3 & _ & E3).
        apply (replacement w q (length s) (length (na_service x)) (length (na_regexp x))).
        * replace (q + 4)%nat with x1 by lia. exact O1.
        * replace (q + 5 + length s)%nat with x2 by lia. exact O2.
        * replace (q + 6 + length s + length (na_service x))%nat with x3 by lia. exact O3.
      + destruct Ss as (O1 & L1 & _ & E1). match goal with H : str w (na_service x) _ _ |- _ => destruct H as (O2 & L2 & _ & E2) end. destruct Sr as (O3 & L3 & _ & E3). lia.
  Qed.
  Lemma nodup_same (l m : list (N * bytes)) : NoDup (map fst l) -> (forall x, In x m <-> last_of fst l x) -> map fst m = rev (nodup N.eq_dec (rev (map fst l))) -> m = l.
  Proof.
    intros ND I M. rewrite nodup_fixed_point, rev_involutive in M by (apply NoDup_rev, ND). apply same_map; [rewrite M; exact ND|exact M|].
    intros x. rewrite I. symmetry. apply nodup_last, ND.
  Qed.
  Lemma strict_opt m : laid (pieces w c (DOPT m)) q (length w) -> (forall all, consecutive (option_at w) q all (length w) -> NoDup (map fst all)) -> fields_at w (rfc_fields (DOPT m)) q (length w).
  Proof.
    intros H T. cbn [pieces laid] in H. destruct H as (e & (all & (C & E) & I & M) & E'). subst e. specialize (T _ C). apply (nodup_same all m T I) in M. subst m. cbn [rfc_fields].
    apply (to_flat w _ (option_at w)); [|exact C]. intros x p m (A1 & A2 & L & S & ->). apply u16_number in A1; [|exact B]. apply u16_number in A2; [|exact B].
    eapply at_more; [apply (to_number w B); split; [exact A1|reflexivity]|]. eapply at_more; [|constructor]. apply to_sized; [exact B|]. exists (p + 4)%nat. split; [split; [exact A2|lia]|].
    split; [split; [exact L|exact S]|reflexivity].
  Qed.
  Lemma last_octet s p : octets_at w p s -> s <> [] -> nth_error w (p + length s - 1) = Some (last s 1).
  Proof.
    intros O NE. destruct (exists_last NE) as (a & o & ->). rewrite last_last. apply octets_split in O. destruct O as (_ & O). apply octet_first in O. rewrite app_length. cbn [length].
    replace (p + (length a + 1) - 1)%nat with (p + length a)%nat by lia. apply O.
  Qed.
  Lemma strict_address n k a p e : apl_address w n k a p e ->
    (forall o, nth_error w p = Some o -> (o mod 128) mod 2 = 0 /\ o mod 128 <= N.of_nat k /\ (o mod 128 <> 0 -> nth_error w (p + N.to_nat (o mod 128)) <> Some 0)) ->
    field_at w (AddressPart n k a) p e.
  Proof.
    intros (o & s & (No & _) & -> & Ls & (O & ->) & ->) T. apply number1 in No. destruct (T o No) as (T1 & T2 & T3).
    assert (Lo : o < 256) by (apply nth_error_In in No; apply (proj1 (Forall_forall _ _) B) in No; exact No).
    assert (E : N.of_nat (length s) = o mod 128) by lia. assert (El : N.to_nat (o mod 128) = length s) by lia. rewrite El in T3.
    assert (V : o = flag (N.testbit o 7) 128 + N.of_nat (length s)).
    { rewrite E, N.testbit_eqb. change (2 ^ 7) with 128. destruct (N.eqb_spec (o / 128 mod 2) 1) as [X|X]; unfold flag; lia. }
    replace (S p + length s)%nat with (p + length (o :: s))%nat by (cbn [length]; lia). rewrite V at 2. apply at_other; [exact I| |].
    - constructor. apply (afd_part _ _ _ (k - length s)%nat).
      + lia.
      + destruct O as (_ & <-). apply slice_bytes, B.
      + unfold value_of. f_equal. rewrite firstn_app, (firstn_all2 s) by lia. f_equal. symmetry. apply firstn_repeat. lia.
      + destruct s as [|x s]; [discriminate|]. pose proof (last_octet _ _ O ltac:(discriminate)) as La.
        intros Z. apply T3; [cbn [length] in *; lia|]. replace (p + length (x :: s))%nat with (S p + length (x :: s) - 1)%nat by lia. rewrite La, Z. reflexivity.
    - rewrite <- V. replace (S p) with (p + 1)%nat in O by lia. apply (octets_cons w B o s p (p + 1 + length s)%nat); [exact No|]. split; [exact O|reflexivity].
  Qed.
  Lemma strict_apl x : laid (pieces w c (DAPL x)) q (length w) -> (forall o, nth_error w (q + 3) = Some o ->
      (o mod 128) mod 2 = 0 /\ o mod 128 <= N.of_nat (afd_width (apl_afd x)) /\ (o mod 128 <> 0 -> nth_error w (q + 3 + N.to_nat (o mod 128)) <> Some 0)) ->
    fields_at w (rfc_fields (DAPL x)) q (length w).
  Proof.
    intros H T. cbn [pieces] in H. cbn [rfc_fields]. destruct (apl_afd x) as [a|a]; cbn [afd_width afd_number afd_fam] in *; opened H; put; put; (eapply at_more; [|constructor]);
      (replace x1 with (q + 3)%nat in * by lia; apply strict_address; assumption).
  Qed.
  Lemma strict_ds x : laid (pieces w c (DDS x)) q (length w) -> ds_dt x <> DtSHA512 -> fields_at w (rfc_fields (DDS x)) q (length w).
  Proof.
    intros H T. opened H. cbn [rfc_fields]. put. put. eapply at_more; [eapply to_reg; [exact B| |eassumption]|puts]. destruct (ds_dt x); cbn; tauto.
  Qed.
  Lemma strict_dnskey x : laid (pieces w c (DDNSKEY x)) q (length w) -> (forall f, u16_at w q f -> In f [0; 1; 256; 257]) -> fields_at w (rfc_fields (DDNSKEY x)) q (length w).
  Proof.
    intros H T. opened H. cbn [rfc_fields]. match goal with H : num_such _ _ _ _ _ |- _ => destruct H as (f & (Ez & Es) & Nf) end. ends. eapply at_more; [|puts].
    assert (U : u16_at w q f) by (apply u16_number; [exact B|apply Nf]). apply T in U.
    replace (flag (dk_zone x) 256 + flag (dk_sep x) 1) with f; [give|]. rewrite Ez, Es. destruct U as [<-|[<-|[<-|[<-|[]]]]]; reflexivity.
  Qed.
  Lemma strict_caa x : laid (pieces w c (DCAA x)) q (length w) -> (forall o, nth_error w q = Some o -> In o [0; 128]) -> (forall s e, string_at w (q + 1) s e -> is_text s) ->
    fields_at w (rfc_fields (DCAA x)) q (length w).
  Proof.
    intros H T1 T2. opened H. cbn [rfc_fields]. match goal with H : num_such _ _ _ _ _ |- _ => destruct H as (f & Ef & Nf) end.
    match goal with H : exists raw, _ |- _ => destruct H as (raw & NE & Sr & Er); apply repaired_iff in Er; symmetry in Er end. ends.
    assert (U : nth_error w q = Some f) by (apply number1, Nf). apply T1 in U. replace (flag (caa_critical x) 128) with f by (rewrite Ef; destruct U as [<-|[<-|[]]]; reflexivity).
    assert (Tr : is_text raw) by (apply (T2 raw x1); replace (q + 1)%nat with x0 by lia; exact Sr). apply lossy_spec in Tr. rewrite Er, Tr. puts.
  Qed.
  Lemma ipalg_code a : a = AlgReserved \/ a = AlgECDSA -> number_in iana_ipseckey_alg a (alg_code a).
  Proof. intros [-> | ->]; cbn; tauto. Qed.
  Lemma strict_ipseckey x : names_strict IPSECKEY -> laid (pieces w c (DIPSECKEY x)) q (length w) -> ip_alg x = AlgReserved \/ ip_alg x = AlgECDSA -> ip_gw x <> GwNone ->
    fields_at w (rfc_fields (DIPSECKEY x)) q (length w).
  Proof.
    intros N H Ta Tg. opened H. cbn [rfc_fields app]. put.
    assert (G : gateway_type (ip_gw x) = gateway_number (ip_gw x)) by (destruct (ip_gw x); reflexivity).
    match goal with H : num w 1 (gateway_type _) _ _ |- _ => pose proof H as Hg; rewrite G in H end. put.
    eapply at_more; [eapply to_reg; [exact B| |eassumption]; apply ipalg_code, Ta|].
    match goal with H : gateway_at _ _ _ _ |- _ => pose proof (gateway_in w _ _ _ H); rename H into GA end.
    eapply (to_app w _ _ _ x3); [|puts]. destruct (ip_gw x) as [|a|a|f]; [contradiction|..]; cbn [gateway_fields gateway_at gateway_number gateway_type] in *; (eapply at_more; [|constructor]).
    - apply to_number; [exact B|exact GA].
    - apply to_number; [exact B|exact GA].
    - eapply (to_name IPSECKEY); [exact N|exact GA| |reflexivity]. replace x2 with (q + 3)%nat by lia. apply gateway_name. apply number1. replace (q + 1)%nat with x0 by lia. apply Hg.
  Qed.
  Lemma strict_hip x : names_strict HIP -> laid (pieces w c (DHIP x)) q (length w) -> hip_alg x = AlgReserved \/ hip_alg x = AlgECDSA -> fields_at w (rfc_fields (DHIP x)) q (length w).
  Proof.
    intros N H Ta. opened H. cbn [rfc_fields app]. put. eapply at_more; [eapply to_reg; [exact B| |eassumption]; apply ipalg_code, Ta|]. put. put. put.
    match goal with H : servers _ _ _ _ |- _ => rename H into Sv end. destruct (hip_rv x) as [l|]; cbn [servers] in Sv; [|destruct Sv as (-> & _); constructor].
    destruct Sv as (_ & C & _).
    assert (E0 : octet_at w q (length (hip_hit x))) by (match goal with H : num w 1 (N.of_nat _) _ _ |- _ => apply number1, H end).
    assert (E1 : u16_at w (q + 2) (N.of_nat (length (hip_pk x)))).
    { match goal with H : num w 2 (N.of_nat _) ?p _ |- _ => replace (q + 2)%nat with p by lia; apply u16_number; [exact B|apply H] end. }
    assert (St : x4 = (q + 4 + length (hip_hit x) + N.to_nat (N.of_nat (length (hip_pk x))))%nat).
    { repeat match goal with H : octets w _ _ _ |- _ => destruct H as (_ & ?) end. lia. }
    assert (X : forall l0 p, consecutive (name_at w 191) (q + 4 + length (hip_hit x) + N.to_nat (N.of_nat (length (hip_pk x))))%nat l0 p -> forall l e, consecutive (fun p f e => name w f p e) p l e -> fields_at w (map DomainName l) p e).
    { intros l0 p C0 l'. revert l0 p C0. induction l' as [|f l' IH]; intros l0 p C0 e Cc; inversion Cc; subst; cbn [map]; [constructor|].
      match goal with H : name w f p ?m |- _ => rename H into Nf end. eapply at_more.
      - eapply (to_name HIP); [exact N|exact Nf| |reflexivity]. eapply rendezvous; [exact E0|exact E1|exact C0|]. apply name_in in Nf. lia.
      - eapply (IH (l0 ++ [f])); [|eassumption]. clear - C0 Nf. assert (p < m)%nat by (pose proof (name_at_end _ _ _ _ Nf); lia).
        induction C0 as [p|p y k ys e Hy Lp C0 IHc]; cbn [app]; [apply (one_more _ _ _ m); [exact Nf|assumption|constructor]|]. apply (one_more _ _ _ k); [exact Hy|exact Lp|]. apply IHc; assumption. }
    apply (X [] x4); [rewrite St; constructor|exact C].
  Qed.
  Lemma windows_octets ws : forall p e, consecutive (window_at w) p ws e -> octets w (flat_map window_octets ws) p e \/ ws = [] /\ p = e.
  Proof.
    induction ws as [|x ws IH]; intros p e C; inversion C; subst; [right; auto|left]. cbn [flat_map]. match goal with H : window_at _ _ _ _ |- _ => destruct H as (E1 & E2 & L & S & ->) end.
    assert (Ox : octets w (window_octets x) p (p + 2 + length (snd x))%nat).
    { apply octets_cons; [exact B|exact E1|]. apply octets_cons; [exact B|exact E2|]. replace (p + 1 + 1)%nat with (p + 2)%nat by lia. split; [split; assumption|reflexivity]. }
    match goal with H : consecutive _ _ ws e |- _ => apply IH in H; destruct H as [Hc|(-> & <-)] end.
    - apply octets_is in Hc. apply octets_is in Ox. destruct Hc as (L1 & S1 & ->), Ox as (L2 & S2 & E). apply octets_is. rewrite app_length. split; [lia|]. split; [|lia].
      rewrite slice_add. congruence.
    - cbn [flat_map]. rewrite app_nil_r. exact Ox.
  Qed.
  Lemma strict_bitmaps ts p : (p <= length w)%nat -> bitmaps w c ts p (length w) -> (forall ws, windows_at w p ws -> windows_strict ws) -> field_at w (TypeBitMaps ts) p (length w).
  Proof.
    intros Lp (ws & W & A & S & I & _) T. pose proof (T _ W) as ((Ws & Wf) & Wm). assert (O : octets w (flat_map window_octets ws) p (length w)).
    { apply windows_octets in W. destruct W as [W|(-> & ->)]; [exact W|]. cbn [flat_map]. apply octets_is. cbn [length]. split; [lia|]. split; [reflexivity|lia]. }
    destruct O as (O & E). rewrite E. apply at_other; [exact Logic.I| |exact O]. constructor; [split; assumption|exact Wm|].
    assert (Ln : forall n, marked ws n -> n < 65536).
    { intros n (x & k & Ix & (o & Eo & _) & ->). rewrite Forall_forall in Wf. apply Wf in Ix. cbn beta in Ix. destruct Ix as (L1 & L2 & _).
      assert (Lk : (N.to_nat (k / 8) < length (snd x))%nat) by (apply nth_error_Some; congruence). clear - L1 L2 Lk. destruct x as [a b]. cbn [fst snd] in *. lia. }
    intros n. split.
    - intros M. destruct (A n M) as (t & Bt). exists t. split; [apply I; eauto|]. destruct Bt as (_ & Ec & _). rewrite N.mod_small in Ec by (apply Ln, M). apply type_number, Ec.
    - intros (t & It & Nt). apply I in It. destruct It as (n' & M & (_ & Ec & _)). rewrite N.mod_small in Ec by (apply Ln, M). apply type_number in Nt. congruence.
  Qed.
  Lemma strict_nsec x : names_strict NSEC -> laid (pieces w c (DNSEC x)) q (length w) -> (forall f k ws, name_at w 191 q f k -> windows_at w k ws -> windows_strict ws) -> fields_at w (rfc_fields (DNSEC x)) q (length w).
  Proof.
    intros N H T. opened H. cbn [rfc_fields]. put. eapply at_more; [|constructor]. apply strict_bitmaps; [assumption..|]. intros ws. eapply T. eassumption.
  Qed.
  Lemma strict_csync x : laid (pieces w c (DCSYNC x)) q (length w) -> (forall ws, windows_at w (q + 6) ws -> windows_strict ws) -> fields_at w (rfc_fields (DCSYNC x)) q (length w).
  Proof.
    intros H T. opened H. match goal with H : _ /\ _ |- _ => destruct H as (Nf & Lf) end. ends. cbn [rfc_fields]. put.
    assert (E : cs_flags x = flag (csync_soa_minimum (cs_flags x)) 2 + flag (csync_immediate (cs_flags x)) 1)
      by (assert (cs_flags x = 0 \/ cs_flags x = 1 \/ cs_flags x = 2 \/ cs_flags x = 3) as [->|[->|[->| ->]]] by lia; reflexivity).
    rewrite <- E. put. eapply at_more; [|constructor]. apply strict_bitmaps; [assumption..|]. replace x1 with (q + 6)%nat by lia. exact T.
  Qed.
  Lemma strict_param x p e : param_strict w p x e -> fields_at w [Registered 2 (param_number x); Prefixed 2 (param_value x)] p e.
  Proof.
    intros ((K & D & len & Ln & V) & Le & T). apply u16_number in K; [|exact B]. apply u16_number in Le; [|exact B].
    assert (Lp : (p + 4 <= e)%nat) by (destruct x; try destruct V as (-> & _); try subst e; lia).
    eapply at_more; [apply (to_reg w B 2 _ (param_code x) p (p + 2)%nat); [destruct x; reflexivity|split; [exact K|reflexivity]]|]. eapply at_more; [|constructor].
    apply (to_prefixed w B 2); [lia|split; [|reflexivity]; replace (p + 2 + 2)%nat with (p + 4)%nat by lia; exact Le|]. replace (p + 2 + 2)%nat with (p + 4)%nat by lia.
    destruct x as [ks|ids| |n|a|b|a|n b|]; cbn [param_value].
    - destruct V as (_ & raw & C & S & I). specialize (T _ C). assert (ks = raw) as -> by (apply (sorted_ext pkey_code); assumption).
      apply (to_map w _ (key_at w)); [|exact C]. intros k p' m (Ek & Dk & ->). apply u16_number in Ek; [|exact B]. apply (to_reg w B 2 _ (pkey_code k)); [|split; [exact Ek|reflexivity]].
      unfold key_number. destruct k; cbn; auto 12.
    - destruct V as (_ & C). apply (to_map w _ (string_at w)); [|exact C]. intros s p' m Hs. apply (to_str w B), Hs.
    - subst e. constructor.
    - destruct V as (-> & V). eapply at_more; [apply (to_number w B); split; [exact V|reflexivity]|]. replace (p + 6)%nat with (p + 4 + 2)%nat by lia. constructor.
    - destruct V as (-> & V). eapply at_more; [apply (to_number w B); split; [exact V|reflexivity]|]. replace (p + 8)%nat with (p + 4 + 4)%nat by lia. constructor.
    - destruct V as (E & L & ->). eapply at_more; [apply to_octets|constructor]. rewrite E. apply octets_slice. lia.
    - destruct V as (-> & V). eapply at_more; [apply (to_number w B); split; [exact V|reflexivity]|]. replace (p + 20)%nat with (p + 4 + 16)%nat by lia. constructor.
    - destruct V as (E & L & ->). eapply at_more; [apply to_octets|constructor]. rewrite E. apply octets_slice. lia.
    - subst e. constructor.
  Qed.
  Lemma strict_svcb x : names_strict SVCB -> laid (pieces w c (DSVCB x)) q (length w) -> (forall f k all, name_at w 191 (q + 2) f k -> consecutive (param_at w) k all (length w) ->
      sorted_by param_code all /\ consecutive (param_strict w) k all (length w)) -> fields_at w (rfc_fields (DSVCB x)) q (length w).
  Proof.
    intros N H T. opened H. cbn [rfc_fields app]. match goal with H : params _ _ _ _ |- _ => destruct H as (all & C & _ & S & I) end. put. put.
    match goal with H : name w (sv_target x) ?a ?b |- _ => replace a with (q + 2)%nat in H by lia; destruct (T _ _ _ H C) as (Sa & Ca) end.
    assert (sv_params x = all) as ->.
    { apply (sorted_ext param_code); [exact S|exact Sa|]. intros y. rewrite I. apply first_of_self. clear - Sa. revert Sa. induction all as [|z l IH]; intros Sa a b Ia Ib E; [destruct Ia|].
      cbn [sorted_by] in Sa. destruct Sa as (F & Sa). rewrite Forall_forall in F. destruct Ia as [<-|Ia], Ib as [<-|Ib]; [reflexivity| | |apply IH; assumption].
      - specialize (F b Ib). cbn beta in F. lia.
      - specialize (F a Ia). cbn beta in F. lia. }
    apply (to_flat w _ (param_strict w)); [|exact Ca]. intros y p m. apply strict_param.
  Qed.
  Lemma strict_data x m : laid (pieces w c x) q m -> data_strict c w q x -> fields_at w (rfc_fields x) q (length w).
  Proof.
    intros H (T1 & N & T). pose proof (T1 _ H) as ->. pose proof (strict_simple x N H) as Sx. destruct x; try exact Sx; cbn [rdata_type] in N.
    - apply strict_txt; assumption.
    - apply strict_naptr; assumption.
    - apply strict_opt; assumption.
    - apply strict_apl; assumption.
    - apply strict_ds; assumption.
    - destruct T.
    - apply strict_ipseckey; tauto.
    - apply strict_nsec; assumption.
    - apply strict_dnskey; assumption.
    - apply strict_hip; assumption.
    - apply strict_ds; assumption.
    - apply strict_dnskey; assumption.
    - apply strict_csync; assumption.
    - apply strict_svcb; assumption.
    - apply strict_caa; tauto.
  Qed.
End Types.

Section Message.
  Context (c : cfg) (d : bytes) (B : byte_list d).
  Lemma u16_small p v : u16_at d p v -> v < 65536.
  Proof. intros (a & b & _ & La & _ & Lb & ->). lia. Qed.
  Lemma to_u16 p v : u16_at d p v -> num d 2 v p (p + 2)%nat.
  Proof. intros H. split; [apply u16_number; assumption|reflexivity]. Qed.
  Lemma to_u32 p v : u32_at d p v -> num d 4 v p (p + 4)%nat.
  Proof.
    intros (hi & lo & H & L & ->). apply u16_number in H; [|exact B]. apply u16_number in L; [|exact B]. destruct H as (L1 & ->), L as (L2 & ->). split; [|reflexivity]. split; [lia|].
    change 4%nat with (2 + 2)%nat. rewrite slice_add, fold_left_app.
    assert (E : length (slice d (p + 2) 2) = 2%nat) by (apply slice_length; lia). destruct (slice d (p + 2) 2) as [|x [|y [|z s]]]; try discriminate. cbn [fold_left]. lia.
  Qed.
  Lemma strict_question p q e : question_strict c d p q e -> fields_at d (question_fields c q) p e.
  Proof.
    intros ((k & v & N & T & D & V & C & U & ->) & S). destruct (S k v N V) as (Sn & Sv). pose proof (u16_small _ _ V) as Lv. unfold question_fields.
    eapply at_more; [apply at_name; exact Sn|]. eapply at_more; [apply (to_reg d B 2 _ (qtype_code (q_type q))); [|apply to_u16; exact T]|].
    { unfold number_in. destruct (q_type q) as [t| | | |]; [apply in_or_app; left; apply (in_map (fun p => (QT (fst p), snd p)) _ (t, rtype_code t)), iana_types_code|apply in_or_app; right; cbn; tauto..]. }
    replace (k + 4)%nat with (k + 2 + 2)%nat by lia. eapply at_more; [|constructor]. apply (to_reg d B 2 _ v); [|apply to_u16; exact V]. exists (v mod 32768). rewrite <- C. split.
    - destruct (q_class q); cbn; tauto.
    - rewrite C, U. unfold top_bit. destruct (mdns c); cbn [andb].
      + destruct (N.leb_spec 32768 v); unfold flag; lia.
      + specialize (Sv eq_refl). unfold flag. lia.
  Qed.
  Lemma strict_record p r e : record_strict c d p r e -> fields_at d (record_fields c r) p e.
  Proof.
    intros ((k & v & len & N & T & D & Tx & V & C & Pl & U & TTL & Ln & Ee & Le & m & Lm & L) & S). destruct (S k v N V) as (Sn & Sv & Sd). pose proof (u16_small _ _ V) as Lv. unfold record_fields.
    assert (Lf : length (firstn e d) = e) by (rewrite firstn_length; lia).
    eapply at_more; [apply at_name; exact Sn|]. eapply at_more; [apply (to_reg d B 2 _ (rtype_code (rr_type r))); [apply iana_types_code|apply to_u16; exact T]|].
    eapply at_more; [apply (to_reg d B 2 _ v); [|apply to_u16; exact V]|].
    { exists (v mod 32768). rewrite <- C. split.
      - destruct (rr_class r); cbn; unfold class_number; cbn; tauto.
      - rewrite C, U. unfold top_bit. destruct (mdns c); cbn [andb].
        + destruct (N.leb_spec 32768 v); unfold flag; lia.
        + specialize (Sv eq_refl). unfold flag. lia. }
    eapply at_more; [apply (to_number d B); replace (k + 2 + 2)%nat with (k + 4)%nat by lia; apply to_u32; exact TTL|]. eapply at_more; [|constructor].
    replace (k + 4 + 4)%nat with (k + 8)%nat by lia. apply (to_prefixed d B 2); [lia| |].
    - replace (N.of_nat (e - (k + 8 + 2))) with len by lia. apply to_u16, Ln.
    - replace (k + 8 + 2)%nat with (k + 10)%nat by lia. apply (proj2 (fields_more d e)). rewrite <- Lf at 2. apply (strict_data c (firstn e d)) with (m := m).
      + apply byte_list_firstn, B.
      + lia.
      + exact L.
      + exact Sd.
  Qed.
  Lemma numbers_place fs : forallb (fun f => match f with Number _ _ => true | _ => false end) fs = true ->
    forall bs, fields_octets fs bs -> forall p, octets_at d p bs -> fields_at d fs p (p + length bs).
  Proof.
    induction fs as [|f fs IH]; intros N bs F p O; inversion F; subst; [cbn [length]; rewrite Nat.add_0_r; constructor|].
    cbn [forallb] in N. apply andb_prop in N. destruct N as (Nf & N). apply octets_split in O. destruct O as (Oa & Ob). rewrite app_length. eapply at_more.
    - apply at_other; [destruct f; try discriminate; exact I|eassumption|exact Oa].
    - rewrite Nat.add_assoc. apply IH; assumption.
  Qed.
  Lemma strict_packet p : allocatable d -> packet_try_from c d = Ok p -> packet_strict c d p -> exists e, fields_at d (message_fields c p) 0 e.
  Proof.
    intros A H (e1 & e2 & e3 & e & C1 & C2 & C3 & C4). apply packet_iff in H; [|exact B]. destruct H as (e' & H). apply packet_wire in H; [|exact B|exact A].
    destruct H as (L & B12 & Th & V & (N1 & N2 & N3 & N4) & _). exists e.
    assert (V' : mkview (v_id (view (p_header p))) (v_qr (view (p_header p))) (v_opcode (view (p_header p))) (v_aa (view (p_header p))) (v_tc (view (p_header p))) (v_rd (view (p_header p)))
      (v_ra (view (p_header p))) (v_z (view (p_header p))) (v_rcode (view (p_header p))) (count (p_questions p)) (count (p_answers p)) (count (p_authorities p)) (count (p_additionals p)) = view (p_header p)).
    { unfold count. rewrite N1, N2, N3, N4, V, fields_firstn by exact L. reflexivity. }
    unfold message_fields. rewrite V'.
    assert (L12 : length (firstn 12 d) = 12%nat) by (rewrite firstn_length; lia). destruct (header_of_bytes _ B12 L12) as (h & Th' & Eh).
    apply (to_app d _ _ 0 12%nat).
    - pose proof (header_layout h Th') as F. rewrite <- fields_view, Eh, <- V in F by exact Th'. rewrite <- L12 at 1. apply (numbers_place (header_fields (view (p_header p))) eq_refl _ F 0%nat).
      split; [lia|]. rewrite L12. reflexivity.
    - eapply to_app; [apply (to_flat d _ (question_strict c d)); [|exact C1]; intros x q m; apply strict_question|].
      assert (X : forall rs q m, consecutive (record_strict c d) q rs m -> fields_at d (flat_map (record_fields c) rs) q m)
        by (intros rs q m; apply (to_flat d _ (record_strict c d)); intros x q' m'; apply strict_record).
      eapply to_app; [apply X; exact C2|]. eapply to_app; apply X; eassumption.
  Qed.
End Message.
