(** * Fields in their place are read as what they are *)
From Coq Require Import Sorting.Sorted Lia ZifyBool ZifyNat ZifyN.
From Verif Require Import Base Utf8 Buffer Fqdn Header Types RDataBasic Bitmap Svcb RDataSec RData Packet BaseFacts Utf8Facts BufferFacts NameSpec FqdnLoop FqdnFacts BitmapFacts NameProps
  CodeSpec CodeFacts RDataSpec RDataFacts ParseFacts HeaderSpec WireSpec WireFacts SvcbParse FailSpec FailFacts FieldSpec FieldFacts LayoutSpec LayoutFacts LayoutUnique RepairSpec RepairFacts ReadSpec ReadFacts InteropSpec.
Ltac Zify.zify_post_hook ::= Z.div_mod_to_equations.

Scheme field_at_mut := Induction for field_at Sort Prop
  with fields_at_mut := Induction for fields_at Sort Prop.
Combined Scheme fields_at_ind2 from field_at_mut, fields_at_mut.

(** ** Only the octets before the end matter *)
Lemma strict_start d k p f e : strict_name_at d k p f e -> (p < e)%nat.
Proof. induction 1; lia. Qed.
Lemma nth_prefix {X} (d : list X) n p : (p < n)%nat -> nth_error (firstn n d) p = nth_error d p.
Proof.
  revert d p. induction n as [|n IH]; intros d p L; [lia|]. destruct d as [|x d]; [reflexivity|]. destruct p as [|p]; [reflexivity|]. cbn [firstn nth_error]. apply IH. lia.
Qed.
Lemma slice_prefix {X} (d : list X) n p k : (p + k <= n)%nat -> slice (firstn n d) p k = slice d p k.
Proof.
  intros L. unfold slice. rewrite <- (firstn_skipn n d) at 2. rewrite skipn_app, firstn_app.
  assert (C : (n <= length d \/ length d < n)%nat) by lia. destruct C as [C|C].
  - replace (k - length (skipn p (firstn n d)))%nat with 0%nat by (rewrite skipn_length, firstn_length; lia). cbn [firstn]. symmetry. apply app_nil_r.
  - rewrite (skipn_all2 d) by lia. rewrite skipn_nil, firstn_nil, app_nil_r. reflexivity.
Qed.
Lemma octets_at_prefix d n p s : octets_at d p s -> (p + length s <= n)%nat -> octets_at (firstn n d) p s.
Proof. intros (L & S) H. split; [rewrite firstn_length; lia|]. rewrite slice_prefix by exact H. exact S. Qed.
Lemma strict_prefix d k n p f e : strict_name_at d k p f e -> (e <= n)%nat -> strict_name_at (firstn n d) k p f e.
Proof.
  induction 1 as [p R|p l ls q Lb H IH|p t ls q P H IH Q]; intros L.
  - apply strict_root. rewrite nth_prefix by lia. exact R.
  - pose proof (strict_start _ _ _ _ _ H). apply strict_label; [|apply IH; lia]. destruct Lb as (m & E & Lm & Ld & El). exists m.
    assert (Ln : length l = N.to_nat m) by (subst l; apply slice_length; lia). rewrite nth_prefix by lia. split; [exact E|]. split; [exact Lm|].
    split; [rewrite firstn_length; lia|]. rewrite slice_prefix by lia. exact El.
  - apply (strict_ptr _ _ _ t _ q); [|apply IH; lia|exact Q]. destruct P as (a & b & Ea & La & Eb & Lb & T). exists a, b. rewrite !nth_prefix by lia. auto.
Qed.
Lemma field_start d : (forall f p e, field_at d f p e -> (p <= e)%nat) /\ (forall fs p e, fields_at d fs p e -> (p <= e)%nat).
Proof.
  apply (fields_at_ind2 d (fun f p e _ => (p <= e)%nat) (fun fs p e _ => (p <= e)%nat)); intros; try lia.
  apply strict_start in r. lia.
Qed.
Lemma fields_prefix d n : (forall f p e, field_at d f p e -> (e <= n)%nat -> field_at (firstn n d) f p e) /\
  (forall fs p e, fields_at d fs p e -> (e <= n)%nat -> fields_at (firstn n d) fs p e).
Proof.
  apply (fields_at_ind2 d (fun f p e _ => (e <= n)%nat -> field_at (firstn n d) f p e) (fun fs p e _ => (e <= n)%nat -> fields_at (firstn n d) fs p e)).
  - intros f p e R L. apply at_name. apply strict_prefix; assumption.
  - intros w fs l p e O Ll B V F IH L. pose proof (proj2 (field_start d) _ _ _ F). apply (at_prefixed _ _ _ l); try assumption; [|apply IH, L].
    apply octets_at_prefix; [exact O|lia].
  - intros f bs p K F O L. apply at_other; try assumption. apply octets_at_prefix; assumption.
  - intros p L. constructor.
  - intros f fs p m e H IH H' IH' L. pose proof (proj2 (field_start d) _ _ _ H'). apply (at_more _ _ _ _ m); [apply IH; lia|apply IH', L].
Qed.

(** ** Single fields *)
Lemma fa_nil d p e : fields_at d [] p e -> p = e.
Proof. intros H. inversion H. reflexivity. Qed.
Lemma fa_cons d f fs p e : fields_at d (f :: fs) p e -> exists m, field_at d f p m /\ fields_at d fs m e.
Proof. intros H. inversion H; subst. eauto. Qed.
Lemma fa_app d fs gs : forall p e, fields_at d (fs ++ gs) p e -> exists m, fields_at d fs p m /\ fields_at d gs m e.
Proof.
  induction fs as [|f fs IH]; intros p e H; cbn [app] in H; [exists p; split; [constructor|exact H]|].
  apply fa_cons in H. destruct H as (m & H1 & H2). apply IH in H2. destruct H2 as (m2 & H2 & H3). exists m2. split; [econstructor; eassumption|exact H3].
Qed.
Lemma app_same_length {X} (a b c d : list X) : a ++ c = b ++ d -> length a = length b -> a = b /\ c = d.
Proof.
  revert b. induction a as [|x a IH]; intros [|y b] E L; cbn in *; try lia; [auto|]. injection E as <- E. destruct (IH b E ltac:(lia)) as (-> & ->). auto.
Qed.
Section Single.
  Context (d : bytes) (B : byte_list d).
  Lemma fa_other f p e : field_at d f p e -> match f with DomainName _ | Prefixed _ _ => False | _ => True end ->
    exists bs, field_octets f bs /\ octets_at d p bs /\ e = (p + length bs)%nat.
  Proof. intros H K. inversion H; subst; try destruct K; eauto. Qed.
  Lemma num_of w bs p : octets_at d p bs -> length bs = w -> num d w (value_of bs) p (p + length bs)%nat.
  Proof. intros (L & S) E. subst w. split; [|reflexivity]. split; [exact L|]. rewrite S. reflexivity. Qed.
  Lemma fa_number w v p e : field_at d (Number w v) p e -> num d w v p e.
  Proof. intros H. apply fa_other in H; [|exact I]. destruct H as (bs & F & O & ->). apply number_inv in F. destruct F as (L & _ & <-). apply num_of; assumption. Qed.
  Lemma fa_reg w such p e : field_at d (Registered w such) p e -> exists v, such v /\ num d w v p e.
  Proof. intros H. apply fa_other in H; [|exact I]. destruct H as (bs & F & O & ->). apply registered_inv in F. destruct F as (L & _ & S). exists (value_of bs). split; [exact S|]. apply num_of; assumption. Qed.
  Lemma fa_code w (such : N -> Prop) n p e : (forall v, such v -> v = n) -> field_at d (Registered w such) p e -> num d w n p e.
  Proof. intros U H. apply fa_reg in H. destruct H as (v & S & H). apply U in S. subst v. exact H. Qed.
  Lemma fa_name f p e : field_at d (DomainName f) p e -> name d f p e.
  Proof. intros H. inversion H as [? ? ? R| |? ? ? K]; subst; [|destruct K]. apply rfc_accepted in R. apply (extract_fqdn_iff d p _ _ B), R. Qed.
  Lemma fa_octets s p e : field_at d (Octets s) p e -> octets d s p e.
  Proof. intros H. apply fa_other in H; [|exact I]. destruct H as (bs & F & O & ->). apply octets_inv in F. subst bs. split; [exact O|reflexivity]. Qed.
  Lemma octets_rest s p : octets d s p (length d) -> rest d s p (length d).
  Proof.
    intros ((L & S) & E). split; [|reflexivity]. rewrite <- S. unfold slice. replace (length s) with (length (skipn p d)) by (rewrite skipn_length; lia). apply firstn_all.
  Qed.
  Lemma fa_rest s p : field_at d (Octets s) p (length d) -> rest d s p (length d).
  Proof. intros H. apply octets_rest, fa_octets, H. Qed.
  Lemma octets_split a b p : octets_at d p (a ++ b) -> octets_at d p a /\ octets_at d (p + length a)%nat b.
  Proof.
    intros (L & S). rewrite app_length in L, S. rewrite slice_add in S.
    assert (La : length (slice d p (length a)) = length a) by (apply slice_length; lia).
    apply app_same_length in S; [|exact La]. destruct S as (Sa & Sb). unfold octets_at. split; split; try lia; assumption.
  Qed.
  Lemma octet_first o s p : octets_at d p (o :: s) -> nth_error d p = Some o /\ octets_at d (p + 1)%nat s.
  Proof.
    intros O. change (o :: s) with ([o] ++ s) in O. apply octets_split in O. destruct O as (O & R). split; [|exact R]. destruct O as (L & S). apply number1.
    split; [exact L|]. cbn [length] in S. rewrite S. reflexivity.
  Qed.
  Lemma string_char s p : octets_at d p (N.of_nat (length s) :: s) -> str d s p (p + S (length s))%nat.
  Proof. intros O. apply octet_first in O. destruct O as (E & (L & S)). unfold str, string_at, octet_at. split; [exact E|]. split; [exact L|]. split; [exact S|]. lia. Qed.
  Lemma fa_str s p e : field_at d (CharString s) p e -> str d s p e.
  Proof. intros H. apply fa_other in H; [|exact I]. destruct H as (bs & F & O & ->). inversion F; subst. apply string_char, O. Qed.
  Lemma fa_prefixed w fs p e : field_at d (Prefixed w fs) p e -> num d w (N.of_nat (e - (p + w))) p (p + w)%nat /\ fields_at d fs (p + w) e.
  Proof.
    intros H. inversion H as [|? ? l ? ? O L Bl V F|? ? ? K]; subst; [|destruct K]. split; [|exact F]. rewrite <- V. apply num_of; [exact O|reflexivity].
  Qed.
  Lemma fa_sized s p e : field_at d (Prefixed 2 [Octets s]) p e -> sized d s p e.
  Proof.
    intros H. apply fa_prefixed in H. destruct H as (H & F). apply fa_cons in F. destruct F as (m & F & E). apply fa_nil in E. subst m. apply fa_octets in F.
    exists (p + 2)%nat. split; [|exact F]. pose proof (proj2 F) as E. replace (length s) with (e - (p + 2))%nat by lia. exact H.
  Qed.
  Lemma fa_map {X} (f : X -> field) (R : nat -> X -> nat -> Prop) : (forall x p m, field_at d (f x) p m -> R p x m /\ (p < m)%nat) ->
    forall l p e, fields_at d (map f l) p e -> consecutive R p l e.
  Proof.
    intros H. induction l as [|x l IH]; intros p e F; cbn [map] in F; [apply fa_nil in F; subst; constructor|].
    apply fa_cons in F. destruct F as (m & F1 & F2). apply H in F1. destruct F1 as (F1 & L). econstructor; [exact F1|exact L|apply IH, F2].
  Qed.
  Lemma fa_flat {X} (f : X -> list field) (R : nat -> X -> nat -> Prop) l : (forall x p m, In x l -> (m <= length d)%nat -> fields_at d (f x) p m -> R p x m /\ (p < m)%nat) ->
    forall p e, (e <= length d)%nat -> fields_at d (flat_map f l) p e -> consecutive R p l e.
  Proof.
    induction l as [|x l IH]; intros H p e Le F; cbn [flat_map] in F; [apply fa_nil in F; subst; constructor|].
    apply fa_app in F. destruct F as (m & F1 & F2). pose proof (proj2 (field_start d) _ _ _ F2). apply H in F1; [|left; reflexivity|lia]. destruct F1 as (F1 & L).
    econstructor; [exact F1|exact L|apply IH; [|exact Le|exact F2]]. intros y p' m' I. apply H. right. exact I.
  Qed.
  (** Type bitmaps. *)
  Lemma windows_there ws : forall p, windows_ok ws -> octets_at d p (flat_map window_octets ws) -> consecutive (window_at d) p ws (p + length (flat_map window_octets ws))%nat.
  Proof.
    induction ws as [|[w bm] ws IH]; intros p W O; cbn [flat_map].
    - cbn [length]. rewrite Nat.add_0_r. constructor.
    - cbn [flat_map] in O. apply octets_split in O. destruct O as (O & R). unfold window_octets in O. cbn [fst snd] in O.
      apply octet_first in O. destruct O as (E1 & O). apply octet_first in O. destruct O as (E2 & (L & S)).
      assert (Lw : length (window_octets (w, bm)) = (2 + length bm)%nat) by reflexivity. rewrite Lw in R.
      assert (W' : windows_ok ws). { destruct W as (Ws & Wf). cbn [map] in Ws. inversion Ws; subst. inversion Wf; subst. split; assumption. }
      apply IH in R; [|exact W']. replace (p + 1 + 1)%nat with (p + 2)%nat in * by lia. rewrite app_length, Lw.
      apply (one_more _ _ _ (p + 2 + length bm)%nat); [|lia|].
      + unfold window_at. cbn [fst snd]. auto.
      + replace (p + 2 + length bm)%nat with (p + (2 + length bm))%nat by lia. replace (p + (2 + length bm + length (flat_map window_octets ws)))%nat with (p + (2 + length bm) + length (flat_map window_octets ws))%nat by lia. exact R.
  Qed.
  Lemma fa_types c ts p : tset_typed c ts -> Forall (decodable c) ts -> field_at d (TypeBitMaps ts) p (length d) -> bitmaps d c ts p (length d).
  Proof.
    intros (S & _) D H. apply fa_other in H; [|exact I]. destruct H as (bs & F & O & E). apply bitmaps_inv in F. destruct F as (ws & -> & W & _ & M).
    exists ws. rewrite Forall_forall in D.
    assert (M' : forall n, marked ws n <-> exists t, In t ts /\ rtype_code t = n).
    { intros n. rewrite M. split; intros (t & It & N); exists t; (split; [exact It|]); apply type_number; exact N. }
    assert (BM : forall t, In t ts -> bit_means c (rtype_code t) t).
    { intros t It. assert (L : rtype_code t < 65536) by (destruct t; reflexivity). split; [apply D, It|]. split; [rewrite N.mod_small by exact L; reflexivity|left; exact L]. }
    split; [unfold windows_at; rewrite E; apply windows_there; assumption|]. split; [|split; [exact S|split; [|reflexivity]]].
    - intros n Mn. apply M' in Mn. destruct Mn as (t & It & <-). exists t. apply BM, It.
    - intros t. split.
      + intros It. exists (rtype_code t). split; [apply M'; eauto|apply BM, It].
      + intros (n & Mn & Bt). apply M' in Mn. destruct Mn as (t' & It & <-). rewrite (bit_means_fun c _ t t' Bt (BM t' It)). exact It.
  Qed.
End Single.

(** ** Each type *)
Ltac next H := apply fa_cons in H; let m := fresh "m" in let F := fresh "F" in destruct H as (m & F & H).
Ltac fields H := repeat (next H); apply fa_nil in H; try subst.
Ltac code := let v := fresh in let X := fresh in intros v X; unfold number_in in X; cbn in X; one_of X; try congruence; try (injection X as <- ; reflexivity).
Section Types.
  Context (c : cfg) (d : bytes) (B : byte_list d).
  Ltac give := first [eassumption | apply fa_number; eassumption | apply fa_name; [exact B|eassumption] | apply fa_rest; eassumption | apply fa_str; eassumption | apply fa_sized; eassumption
    | apply fa_octets; eassumption].
  Ltac piece := eexists; split; [give|].
  Ltac pieces := repeat piece; try reflexivity.
  Lemma salg_num x p e : field_at d (Registered 1 (number_in iana_salg x)) p e -> num d 1 (salg_code x) p e.
  Proof. apply fa_code. destruct x; code. Qed.
  Lemma dt_num x p e : x <> DtSHA512 -> field_at d (Registered 1 (number_in iana_digest_type x)) p e -> num d 1 (digest_type_code x) p e.
  Proof. intros N. apply fa_code. destruct x; code. Qed.
  Lemma ipalg_num x p e : x = AlgReserved \/ x = AlgECDSA -> field_at d (Registered 1 (number_in iana_ipseckey_alg x)) p e -> num d 1 (alg_code x) p e.
  Proof. intros [-> | ->]; apply fa_code; code. Qed.
  Lemma idtype_num x p e : field_at d (Registered 2 (number_in iana_idtype x)) p e -> num d 2 (idtype_code x) p e.
  Proof. apply fa_code. destruct x; code. Qed.
  Lemma usage_num x p e : field_at d (Registered 1 (number_in iana_cert_usage x)) p e -> num d 1 (cert_usage_code x) p e.
  Proof. apply fa_code. destruct x; code. Qed.
  Lemma selector_num x p e : field_at d (Registered 1 (number_in iana_selector x)) p e -> num d 1 (selector_code x) p e.
  Proof. apply fa_code. destruct x; code. Qed.
  Lemma matching_num x p e : field_at d (Registered 1 (number_in iana_matching x)) p e -> num d 1 (matching_code x) p e.
  Proof. apply fa_code. destruct x; code. Qed.
  Lemma tserr_num x p e : field_at d (Registered 2 (number_in iana_tserr x)) p e -> num d 2 (tserr_code x) p e.
  Proof. apply fa_code. destruct x; code. Qed.
  Lemma tkmode_num x p e : field_at d (Registered 2 (fun n => number_in iana_tkmode x n \/ x = TmAvailable n)) p e -> num d 2 (tkmode_code x) p e.
  Proof. apply fa_code. destruct x; code. Qed.
  Lemma tkerr_num x p e : field_at d (Registered 2 (fun n => number_in iana_tkerr x n \/ x = TeRcode n)) p e -> num d 2 (tkerr_code x) p e.
  Proof. apply fa_code. destruct x; code. Qed.
  Lemma rtype_num x p e : field_at d (Registered 2 (number_in iana_types x)) p e -> num d 2 (rtype_code x) p e.
  Proof. apply fa_code. intros v X. symmetry. apply type_number, X. Qed.
  Lemma key_num k p e : field_at d (Registered 2 (key_number k)) p e -> num d 2 (pkey_code k) p e.
  Proof. apply fa_code. unfold key_number. destruct k; code. Qed.
  Lemma param_num x p e : field_at d (Registered 2 (param_number x)) p e -> num d 2 (param_code x) p e.
  Proof. apply fa_code. intros v X. destruct x; exact X. Qed.
  Lemma text_lossy s : text s -> utf8_lossy s = s.
  Proof. intros T. apply lossy_spec. apply utf8_valid_iff, T. Qed.
  Lemma laid_txt l p : Forall text l -> fields_at d (map CharString l) p (length d) -> laid (pieces d c (DTXT l)) p (length d).
  Proof.
    intros T H. apply (fa_map d CharString (string_at d)) in H.
    - cbn [pieces laid]. exists (length d). split; [|reflexivity]. exists l. split; [split; [exact H|reflexivity]|]. apply repaired_all.
      clear H. induction T as [|s l Ts T IH]; [reflexivity|]. cbn [map]. rewrite (text_lossy _ Ts). f_equal. exact IH.
    - intros x q m F. apply fa_str in F. pose proof (string_at_end _ _ _ _ F). split; [exact F|lia].
  Qed.
  Lemma octets_cons o s p e : nth_error d p = Some o -> octets d s (p + 1)%nat e -> octets d (o :: s) p e.
  Proof.
    intros E O. apply octets_is in O. destruct O as (L & S & ->). apply octets_is. cbn [length]. split; [lia|]. split; [|lia].
    change (Datatypes.S (length s)) with (1 + length s)%nat. rewrite slice_add. rewrite <- S. change (o :: s) with ([o] ++ s). f_equal.
    apply nth_error_split in E. destruct E as (l1 & l2 & -> & <-). change (o :: l2) with ([o] ++ l2). change 1%nat with (length [o]). rewrite slice_exact. reflexivity.
  Qed.
  Lemma flags_there fs : forall p e, (e <= length d)%nat -> fields_at d (map (fun f => Registered 1 (number_in iana_nflag f)) fs) p e ->
    exists s, octets d s p e /\ flags_in s fs.
  Proof.
    induction fs as [|f fs IH]; intros p e Le H; cbn [map] in H.
    - apply fa_nil in H. subst e. exists []. split; [|constructor]. apply octets_is. cbn [length]. split; [lia|]. split; [reflexivity|lia].
    - next H. apply fa_reg in F. destruct F as (o & I & N). apply IH in H; [|exact Le]. destruct H as (s & O & Fs). exists (o :: s). split; [|apply a_flag; assumption].
      destruct N as (N & ->). apply number1 in N. apply octets_cons; assumption.
  Qed.
  Lemma fields_end fs p e : fields_at d fs p e -> (p <= length d)%nat -> (e <= length d)%nat.
  Proof.
    intros H. revert fs p e H.
    assert (X : (forall f p e, field_at d f p e -> (p <= length d)%nat -> (e <= length d)%nat) /\ (forall fs p e, fields_at d fs p e -> (p <= length d)%nat -> (e <= length d)%nat));
      [|exact (proj2 X)].
    apply (fields_at_ind2 d (fun f p e _ => (p <= length d)%nat -> (e <= length d)%nat) (fun fs p e _ => (p <= length d)%nat -> (e <= length d)%nat)).
    - intros f p e R L. apply (name_in d f p). apply fa_name; [exact B|]. apply at_name, R.
    - intros w fs l p e O Ll Bl V F IH L. apply IH. destruct O as (O & _). lia.
    - intros f bs p K F O L. apply O.
    - auto.
    - auto.
  Qed.
  Lemma laid_naptr x p : text (na_regexp x) -> fields_at d (rfc_fields (DNAPTR x)) p (length d) -> laid (pieces d c (DNAPTR x)) p (length d).
  Proof.
    intros T H. cbn [rfc_fields] in H. next H. next H. next H.
    assert (Le : (m1 <= length d)%nat) by apply (proj2 (field_start d) _ _ _ H). apply fa_prefixed in F1. destruct F1 as (F1 & G). pose proof (proj2 (field_start d) _ _ _ G). apply flags_there in G; [|exact Le].
    destruct G as (s & O & Fl). fields H. cbn [ReadSpec.pieces laid]. do 2 piece.
    exists m1. split.
    - exists s. split; [|exact Fl]. apply octets_is in O. destruct O as (L & S & E). destruct F1 as (F1 & _). apply number1 in F1.
      unfold str, string_at, octet_at. split; [rewrite F1; do 2 f_equal; lia|]. split; [lia|]. split; [symmetry; exact S|exact E].
    - piece. eexists. split; [split; [give|apply utf8_valid_iff, T]|]. pieces.
  Qed.
  Lemma option_there x p e : fields_at d [Number 2 (fst x); Prefixed 2 [Octets (snd x)]] p e -> option_at d p x e /\ (p < e)%nat.
  Proof.
    intros H. fields H. apply fa_number in F. apply fa_sized in F0. destruct F as (F & ->). destruct F0 as (m & (G & ->) & O). apply octets_is in O. destruct O as (L & S & ->).
    replace (p + 2 + 2)%nat with (p + 4)%nat in * by lia. split; [|lia]. unfold option_at. split; [apply u16_number; assumption|]. split; [apply u16_number; assumption|]. auto.
  Qed.
  Lemma nodup_last {X} (key : X -> N) (l : list X) x : NoDup (map key l) -> In x l <-> last_of key l x.
  Proof.
    intros ND. split.
    - intros I. apply in_split in I. destruct I as (a & b & ->). exists a, b. split; [reflexivity|]. rewrite map_app in ND. cbn [map] in ND. apply NoDup_remove_2 in ND.
      apply Forall_forall. intros y I E. apply ND. apply in_or_app. right. rewrite <- E. apply in_map, I.
    - intros (a & b & -> & _). apply in_or_app. right. left. reflexivity.
  Qed.
  Lemma laid_opt m p : NoDup (map fst m) -> fields_at d (rfc_fields (DOPT m)) p (length d) -> laid (pieces d c (DOPT m)) p (length d).
  Proof.
    intros ND H. cbn [rfc_fields] in H. apply (fa_flat d _ (option_at d)) in H; [|intros x q e _ _; apply option_there|apply le_n].
    cbn [ReadSpec.pieces laid]. exists (length d). split; [|reflexivity]. exists m. split; [split; [exact H|reflexivity]|]. split; [intros x; apply nodup_last, ND|].
    rewrite nodup_fixed_point, rev_involutive; [reflexivity|]. apply NoDup_rev, ND.
  Qed.
  Lemma firstn_repeat {X} (x : X) k : forall n, (k <= n)%nat -> firstn k (repeat x n) = repeat x k.
  Proof. induction k as [|k IH]; intros [|n] L; cbn; try lia; try reflexivity. f_equal. apply IH. lia. Qed.
  Lemma fa_address n w a p e : (w <= 16)%nat -> (forall bs, afd_octets w a bs -> (length bs mod 2 = 0)%nat) -> field_at d (AddressPart n w a) p e -> apl_address d n w a p e.
  Proof.
    intros W Ev H. apply fa_other in H; [|exact I]. destruct H as (bs & F & O & ->). apply address_inv in F. destruct F as (s & -> & A). pose proof (Ev s A) as Es.
    inversion A as [? k L Bs V _]; subst. apply octet_first in O. destruct O as (E & O). exists (flag n 128 + N.of_nat (length s)), s.
    assert (L16 : (length s <= 16)%nat) by lia.
    split; [|split; [|split; [|split]]].
    - replace (S p) with (p + 1)%nat by lia. split; [|reflexivity]. apply number1, E.
    - destruct n; unfold flag.
      + symmetry. apply N.testbit_true. change (2 ^ 7) with 128. lia.
      + symmetry. apply N.testbit_false. change (2 ^ 7) with 128. lia.
    - unfold flag. destruct n; lia.
    - replace (S p) with (p + 1)%nat by lia. split; [exact O|cbn [length]; lia].
    - unfold value_of. f_equal. rewrite firstn_app, firstn_all2 by lia. f_equal. replace (length s + k - length s)%nat with k by lia. apply eq_sym, firstn_repeat. lia.
  Qed.
  Lemma param_there x p e : (e <= length d)%nat -> pkey_documented (param_key x) -> match x with PMandatory ks => Forall pkey_documented ks | _ => True end -> param_typed x ->
    fields_at d [Registered 2 (param_number x); Prefixed 2 (param_value x)] p e -> param_at d p x e /\ (p < e)%nat.
  Proof.
    intros Le D K T H. fields H. apply param_num in F. destruct F as (F & ->). apply fa_prefixed in F0. destruct F0 as ((G & _) & V).
    replace (p + 2 + 2)%nat with (p + 4)%nat in * by lia. pose proof (proj2 (field_start d) _ _ _ V) as Ls. split; [|lia].
    unfold param_at. split; [apply u16_number; assumption|]. split; [exact D|]. exists (N.of_nat (e - (p + 4))). split; [apply u16_number; assumption|].
    assert (E : e = (p + 4 + N.to_nat (N.of_nat (e - (p + 4))))%nat) by (rewrite Nat2N.id; lia).
    destruct x as [ks|ids| |n|a|b|a|n b|]; cbn [param_value param_typed] in *.
    - split; [exact E|]. exists ks. split; [|split; [apply T|reflexivity]].
      revert V K. clear - B. generalize (p + 4)%nat. induction ks as [|k ks IH]; intros q V K; cbn [map] in V; [apply fa_nil in V; subst; constructor|].
      next V. apply key_num in F. inversion K; subst. destruct F as (F & ->). apply (one_more _ _ _ (q + 2)%nat); [|lia|apply IH; assumption]. split; [apply u16_number; assumption|auto].
    - split; [exact E|]. apply (fa_map d CharString (string_at d)) in V; [exact V|]. intros y q m Y. apply fa_str in Y. pose proof (string_at_end _ _ _ _ Y). split; [exact Y|lia].
    - apply fa_nil in V. auto.
    - fields V. apply fa_number in F0. destruct F0 as (N & Ee). split; [lia|exact N].
    - fields V. apply fa_number in F0. destruct F0 as (N & Ee). split; [lia|exact N].
    - split; [exact E|]. split; [exact Le|]. fields V. apply fa_octets, octets_is in F0. destruct F0 as (L & S & Ee). rewrite Nat2N.id. replace (e - (p + 4))%nat with (length b) by lia. exact S.
    - fields V. apply fa_number in F0. destruct F0 as (N & Ee). split; [lia|exact N].
    - split; [exact E|]. split; [exact Le|]. fields V. apply fa_octets, octets_is in F0. destruct F0 as (L & S & Ee). rewrite Nat2N.id. replace (e - (p + 4))%nat with (length b) by lia. exact S.
    - apply fa_nil in V. auto.
  Qed.
  Lemma laid_svcb x p : rdata_typed c (DSVCB x) -> understood c (DSVCB x) -> fields_at d (rfc_fields (DSVCB x)) p (length d) -> laid (pieces d c (DSVCB x)) p (length d).
  Proof.
    intros (_ & _ & S & T) K H. cbn [understood] in K. cbn [rfc_fields app] in H. next H. next H. cbn [ReadSpec.pieces laid]. do 2 piece. exists (length d). split; [|reflexivity].
    exists (sv_params x). rewrite Forall_forall in T, K. split; [|split; [reflexivity|split; [exact S|]]].
    - apply (fa_flat d (fun p => [Registered 2 (param_number p); Prefixed 2 (param_value p)]) (param_at d)) in H; [exact H| |apply le_n]. intros y q e I Le.
      apply param_there; [exact Le|apply K, I|apply K, I|apply T, I].
    - intros y. symmetry. apply first_of_self. clear - S. revert S. induction (sv_params x) as [|z l IH]; intros S a b Ia Ib E; [destruct Ia|].
      cbn [sorted_by] in S. destruct S as (F & S). rewrite Forall_forall in F. destruct Ia as [<-|Ia], Ib as [<-|Ib]; [reflexivity| | |apply IH; assumption].
      + specialize (F b Ib). cbn beta in F. lia.
      + specialize (F a Ia). cbn beta in F. lia.
  Qed.
  Lemma laid_hip x p : understood c (DHIP x) -> fields_at d (rfc_fields (DHIP x)) p (length d) -> laid (pieces d c (DHIP x)) p (length d).
  Proof.
    intros (Ka & Kr) H. cbn [rfc_fields app] in H. do 5 next H. cbn [ReadSpec.pieces laid]. piece. eexists; split; [apply ipalg_num; eassumption|]. do 3 piece. exists (length d). split; [|reflexivity].
    destruct (hip_rv x) as [l|]; cbn [servers].
    - split.
      + destruct l as [|f l]; [contradiction|]. cbn [map] in H. next H. pose proof (proj2 (field_start d) _ _ _ H). inversion F4 as [? ? ? R| |? ? ? K]; subst; [|destruct K].
        apply strict_start in R. lia.
      + split; [|reflexivity]. apply (fa_map d DomainName (fun p f e => name d f p e)) in H; [exact H|]. intros f q mm F'. apply (fa_name d B) in F'. split; [exact F'|]. pose proof (name_at_end _ _ _ _ F'). lia.
    - apply fa_nil in H. auto.
  Qed.
  Lemma laid_ipseckey x p : understood c (DIPSECKEY x) -> fields_at d (rfc_fields (DIPSECKEY x)) p (length d) -> laid (pieces d c (DIPSECKEY x)) p (length d).
  Proof.
    intros (Ka & Kg) H. cbn [rfc_fields app] in H. do 3 next H. cbn [ReadSpec.pieces laid]. do 2 piece. eexists; split; [apply ipalg_num; eassumption|].
    apply fa_app in H. destruct H as (mg & G & H). fields H. exists mg. split; [|pieces].
    destruct (ip_gw x); [contradiction|..]; cbn [gateway_fields gateway_at] in *; fields G; give.
  Qed.
  Lemma laid_dnskey x p : fields_at d (rfc_fields (DDNSKEY x)) p (length d) -> laid (pieces d c (DDNSKEY x)) p (length d).
  Proof.
    intros H. cbn [rfc_fields] in H. fields H. cbn [ReadSpec.pieces laid]. eexists. split; [eexists; split; [|give]|].
    - destruct (dk_zone x), (dk_sep x); auto.
    - piece. eexists; split; [apply salg_num; eassumption|]. pieces.
  Qed.
  Lemma laid_ds x p : ds_dt x <> DtSHA512 -> fields_at d (rfc_fields (DDS x)) p (length d) -> laid (pieces d c (DDS x)) p (length d).
  Proof.
    intros K H. cbn [rfc_fields] in H. fields H. cbn [ReadSpec.pieces laid]. piece. eexists; split; [apply salg_num; eassumption|]. eexists; split; [apply dt_num; eassumption|]. pieces.
  Qed.
  Lemma rdata_there x p : rdata_typed c x -> understood c x -> fields_at d (rfc_fields x) p (length d) -> laid (pieces d c x) p (length d).
  Proof.
    intros T K H. pose proof (proj2 T) as T'. destruct x; cbn [understood] in K; cbn beta iota in T'.
    all: try (cbn [rfc_fields] in H; fields H; cbn [ReadSpec.pieces laid]; pieces; fail).
    - apply laid_txt; assumption.
    - apply laid_naptr; [apply T'|exact H].
    - apply laid_opt; [apply T'|exact H].
    - cbn [rfc_fields] in H. fields H. cbn [ReadSpec.pieces]. destruct (apl_afd x) as [a|a]; cbn [afd_fam afd_width afd_number] in *; cbn [laid]; do 2 piece;
        (eexists; split; [apply fa_address; [lia|exact K|eassumption]|reflexivity]).
    - apply laid_ds; assumption.
    - destruct K.
    - apply laid_ipseckey; assumption.
    - cbn [rfc_fields] in H. fields H. cbn [ReadSpec.pieces laid]. eexists; split; [split; [exact K|apply rtype_num; eassumption]|]. eexists; split; [apply salg_num; eassumption|]. pieces.
    - cbn [rfc_fields] in H. fields H. cbn [ReadSpec.pieces laid]. piece. eexists; split; [apply fa_types; eassumption|reflexivity].
    - apply laid_dnskey; assumption.
    - cbn [rfc_fields] in H. fields H. cbn [ReadSpec.pieces laid]. eexists; split; [apply idtype_num; eassumption|]. pieces.
    - cbn [rfc_fields] in H. fields H. cbn [ReadSpec.pieces laid]. eexists; split; [apply usage_num; eassumption|]. eexists; split; [apply selector_num; eassumption|].
      eexists; split; [apply matching_num; eassumption|]. pieces.
    - apply laid_hip; assumption.
    - apply laid_ds; assumption.
    - apply laid_dnskey; assumption.
    - destruct T' as (T1 & T2 & T3). cbn [rfc_fields] in H. fields H. cbn [ReadSpec.pieces laid]. piece.
      assert (E : cs_flags x = flag (csync_soa_minimum (cs_flags x)) 2 + flag (csync_immediate (cs_flags x)) 1)
        by (assert (cs_flags x = 0 \/ cs_flags x = 1 \/ cs_flags x = 2 \/ cs_flags x = 3) as [->|[->|[->| ->]]] by lia; reflexivity).
      eexists; split; [split; [rewrite E; give|exact T2]|]. eexists; split; [apply fa_types; eassumption|reflexivity].
    - apply laid_svcb; assumption.
    - cbn [rfc_fields] in H. fields H. cbn [ReadSpec.pieces laid]. eexists; split; [split; [give|exact T']|reflexivity].
    - cbn [rfc_fields] in H. fields H. cbn [ReadSpec.pieces laid]. eexists; split; [split; [give|exact T']|reflexivity].
    - destruct K as (K1 & K2). cbn [rfc_fields] in H. fields H. cbn [ReadSpec.pieces laid]. do 3 piece. eexists; split; [split; [exact K1|apply tkmode_num; eassumption]|].
      eexists; split; [split; [exact K2|apply tkerr_num; eassumption]|]. pieces.
    - cbn [rfc_fields] in H. fields H. cbn [ReadSpec.pieces laid]. do 5 piece. eexists; split; [apply tserr_num; eassumption|]. pieces.
    - cbn [rfc_fields] in H. fields H. cbn [ReadSpec.pieces laid]. eexists. split; [eexists; split; [|give]; destruct (caa_critical x); reflexivity|].
      eexists. split; [exists (caa_tag x); split; [exact K|]; split; [give|apply repaired_iff, text_lossy, T']|]. pieces.
  Qed.
End Types.
