(** * What lies in its place as the RFCs say takes none of the liberties *)
From Coq Require Import Sorting.Sorted Lia ZifyBool ZifyNat ZifyN.
From Verif Require Import Base Utf8 Buffer Fqdn Header Types RDataBasic Bitmap Svcb RDataSec RData Packet BaseFacts Utf8Facts BufferFacts NameSpec FqdnLoop FqdnFacts BitmapFacts NameProps
  CodeSpec CodeFacts RDataSpec RDataFacts ParseFacts HeaderSpec HeaderFacts WireSpec WireFacts SvcbParse FailSpec FailFacts FieldSpec FieldFacts LayoutSpec LayoutFacts LayoutUnique ReadSpec ReadFacts
  RecordSpec PacketFacts InteropSpec InteropFacts InteropPacket StrictSpec StrictFacts.
Ltac Zify.zify_post_hook ::= Z.div_mod_to_equations.

Lemma consecutive_start {X} (R : nat -> X -> nat -> Prop) p l e : consecutive R p l e -> (p <= e)%nat.
Proof. induction 1; lia. Qed.
Lemma consecutive_unique {X} (R : nat -> X -> nat -> Prop) : (forall p x m x' m', R p x m -> R p x' m' -> x = x' /\ m = m') ->
  forall l l' p e, consecutive R p l e -> consecutive R p l' e -> l = l'.
Proof.
  intros U. induction l as [|x l IH]; intros l' p e C C'; inversion C; subst; inversion C' as [|? x' m' ? ? H' L' C2]; subst; [reflexivity| | |].
  - apply consecutive_start in C2. lia.
  - match goal with H : consecutive R _ l e |- _ => apply consecutive_start in H end. lia.
  - match goal with H : R p x _ |- _ => destruct (U _ _ _ _ _ H H') as (-> & ->) end. f_equal. eapply IH; eassumption.
Qed.
Lemma u16_unique d p v v' : u16_at d p v -> u16_at d p v' -> v = v'.
Proof. intros (a & b & A & _ & C & _ & ->) (a' & b' & A' & _ & C' & _ & ->). congruence. Qed.
Lemma string_unique d p s e s' e' : string_at d p s e -> string_at d p s' e' -> s = s' /\ e = e'.
Proof.
  unfold string_at, octet_at. intros (O & _ & S & ->) (O' & _ & S' & ->). assert (E : length s = length s') by (rewrite O in O'; injection O' as O'; lia).
  rewrite <- S, <- S', E. auto.
Qed.
Lemma num_unique d k v v' p e e' : num d k v p e -> num d k v' p e' -> v = v' /\ e = e'.
Proof. intros ((_ & ->) & ->) ((_ & ->) & ->). auto. Qed.
Lemma option_unique d p x m x' m' : option_at d p x m -> option_at d p x' m' -> x = x' /\ m = m'.
Proof.
  destruct x as [a s], x' as [a' s']. unfold option_at. cbn [fst snd]. intros (A & L & _ & S & ->) (A' & L' & _ & S' & ->).
  rewrite (u16_unique _ _ _ _ A A'). pose proof (u16_unique _ _ _ _ L L') as E. assert (E' : length s = length s') by lia. rewrite <- S, <- S', E'. auto.
Qed.
Lemma window_unique d p x m x' m' : window_at d p x m -> window_at d p x' m' -> x = x' /\ m = m'.
Proof.
  destruct x as [a s], x' as [a' s']. unfold window_at. cbn [fst snd]. intros (A & L & _ & S & ->) (A' & L' & _ & S' & ->).
  rewrite A in A'. rewrite L in L'. injection A' as <-. injection L' as E. assert (E' : length s = length s') by lia. rewrite <- S, <- S', E'. auto.
Qed.
Lemma key_unique d p k m k' m' : key_at d p k m -> key_at d p k' m' -> k = k' /\ m = m'.
Proof.
  unfold key_at. intros (A & D & ->) (A' & D' & ->). split; [|reflexivity]. pose proof (u16_unique _ _ _ _ A A') as E.
  destruct k, k'; try reflexivity; try discriminate E; unfold pkey_documented in *; cbn [pkey_code] in E; subst; try reflexivity; try lia.
Qed.

Section Types.
  Context (c : cfg) (w : bytes) (B : byte_list w) (A : allocatable w) (q : nat) (Lq : (q <= length w)%nat).
  Lemma rfc_is_name p f e : rfc_name_at w p f e -> name_at w 191 p f e.
  Proof. intros R. apply (fa_name w B). apply at_name, R. Qed.
  Lemma name_strict p f e : field_at w (DomainName f) p e -> rfc_name_at w p f e.
  Proof. intros H. inversion H as [? ? ? R| |? ? ? K]; subst; [exact R|destruct K]. Qed.
  Lemma same_name p f e f' e' : name_at w 191 p f e -> field_at w (DomainName f') p e' -> rfc_name_at w p f e.
  Proof. intros N F. apply name_strict in F. destruct (name_at_unique _ _ _ _ _ _ B N (rfc_is_name _ _ _ F)) as (-> & ->). exact F. Qed.
  Lemma param_unique p x m x' m' : param_at w p x m -> param_at w p x' m' -> (m <= length w)%nat -> (m' <= length w)%nat -> x = x' /\ m = m'.
  Proof.
    intros H H' L L'. pose proof (param_at_start _ _ _ _ H).
    assert (P : param_try_from c (mkbuf w p) = (Ok x, mkbuf w m)) by (apply param_iff; [exact B|exact A|lia|eauto]).
    assert (P' : param_try_from c (mkbuf w p) = (Ok x', mkbuf w m')) by (apply param_iff; [exact B|exact A|lia|eauto]).
    rewrite P in P'. injection P' as -> ->. auto.
  Qed.
  Lemma laid_unique x m m' : laid (pieces w c x) q m -> laid (pieces w c x) q m' -> (m <= length w)%nat -> (m' <= length w)%nat -> m = m'.
  Proof.
    intros H H' L L'.
    assert (P : rdata_from c (rdata_type x) (mkbuf w q) = (Ok x, mkbuf w m)) by (apply (rdata_iff c w B _ A); [exact Lq|eauto 6]).
    assert (P' : rdata_from c (rdata_type x) (mkbuf w q) = (Ok x, mkbuf w m')) by (apply (rdata_iff c w B _ A); [exact Lq|eauto 6]).
    rewrite P in P'. injection P' as ->. reflexivity.
  Qed.
  Ltac bound := first [eapply num_in; eassumption | eapply name_in; eassumption | eapply str_in; eassumption | eapply octets_in; eassumption | eapply rest_in; eassumption | eapply bitmaps_in; eassumption | eapply sized_in; eassumption | eapply naptr_flags_in; eassumption | eapply servers_in; eassumption].
  Lemma laid_bound x m : laid (pieces w c x) q m -> (m <= length w)%nat.
  Proof.
    intros H. destruct x; cbn [pieces laid] in H; try (open_laid H; subst; bound).
    - destruct H as (? & (raw & (_ & ->) & _) & ->). apply le_n.
    - destruct H as (? & (raw & (_ & ->) & _) & ->). apply le_n.
    - destruct (apl_afd x); cbn [laid] in H; destruct H as (? & _ & ? & _ & ? & (o & s & _ & _ & _ & O & _) & <-); bound.
    - destruct H as (? & _ & ? & _ & ? & (all & _ & -> & _) & <-). apply le_n.
    - destruct H as (? & (O & _) & <-). bound.
    - destruct H as (? & (O & _) & <-). bound.
  Qed.

  (** Parsed data laid out as the RFCs say is one of the values for which this is understood (C65). *)
  Ltac known H n := apply fa_reg in H; destruct H as (n & ? & H).
  Ltac meet := repeat match goal with
    | H : num w ?k ?v ?p ?e, H' : num w ?k ?v' ?p ?e' |- _ => lazymatch H with H' => fail | _ =>
        let E := fresh "E" in let E' := fresh "E" in destruct (num_unique _ _ _ _ _ _ _ H H') as (E & E'); try subst e'; try subst e; clear H' end
    end.
  Lemma numbers_apart {X} (x : X) t n k (b : X -> N) p e e' : num w k (b x) p e -> field_at w (Registered k (number_in t x)) p e' -> n = b x -> In (x, n) t.
  Proof. intros H F ->. apply fa_reg in F. destruct F as (v & I & F). destruct (num_unique _ _ _ _ _ _ _ H F) as (<- & _). exact I. Qed.
  Lemma even_address n k a p e : (k <= 16)%nat -> apl_address w n k a p e -> field_at w (AddressPart n k a) p (length w) -> forall bs, afd_octets k a bs -> (length bs mod 2 = 0)%nat.
  Proof.
    intros Lk (o & s & (No & _) & _ & Ls & (O & _) & Ea) F. apply fa_other in F; [|exact I]. destruct F as (bs' & F & O' & Ee). apply address_inv in F. destruct F as (s' & -> & As).
    intros bs Ab. assert (bs = s') as -> by (eapply afd_unique; eassumption). clear Ab.
    apply octet_first in O'. destruct O' as (No' & O'). apply number1 in No. rewrite No in No'. injection No' as ->. inversion As as [? j Lj Bs V La]; subst.
    assert (Ln : (length s = length s' / 2 * 2)%nat) by (unfold flag in Ls; destruct n; lia).
    destruct (Nat.eq_dec (length s' mod 2) 0) as [|Odd]; [assumption|exfalso].
    assert (L1 : length s' = S (length s)) by lia. destruct (exists_last (l := s')) as (t & z & ->); [destruct s'; discriminate|]. rewrite app_length in *. cbn [length] in *.
    assert (Lt : length t = length s) by lia. replace (p + 1)%nat with (S p) in O' by lia. apply octets_split in O'. destruct O' as (Ot & _).
    assert (t = s) as -> by (destruct O as (_ & <-), Ot as (_ & <-); congruence). clear Ot. rewrite last_last in La.
    unfold value_of in V. rewrite firstn_app in V. rewrite (firstn_all2 s) in V by lia. rewrite firstn_repeat in V by lia. replace (length s + 1 + j - length s)%nat with (S j) in V by lia.
    rewrite <- app_assoc in V. rewrite !fold_left_app in V. cbn [repeat app fold_left] in V.
    assert (X : forall j a b, fold_left (fun a o : N => a * 256 + o) (repeat 0 j) a = fold_left (fun a o : N => a * 256 + o) (repeat 0 j) b -> a = b).
    { clear. induction j as [|j IH]; intros a b E; cbn [repeat fold_left] in E; [exact E|]. apply IH in E. lia. }
    apply X in V. lia.
  Qed.
  Lemma code_in {X} (x : X) t k n p e p' e' : num w k n p e -> field_at w (Registered k (number_in t x)) p' e' -> p' = p -> In (x, n) t /\ e' = e.
  Proof. intros H F ->. apply fa_reg in F. destruct F as (v & I & F). destruct (num_unique _ _ _ _ _ _ _ H F) as (<- & <-). auto. Qed.
  Lemma conv_alg a n : In (a, n) iana_ipseckey_alg -> n = alg_code a -> a = AlgReserved \/ a = AlgECDSA.
  Proof. intros I E. cbn in I. one_of I; try discriminate; injection I as <- <-; auto; discriminate. Qed.
  Lemma conv_ds x m : laid (pieces w c (DDS x)) q m -> fields_at w (rfc_fields (DDS x)) q (length w) -> ds_dt x <> DtSHA512.
  Proof.
    intros H F N. cbn [pieces laid] in H. open_laid H. cbn [rfc_fields] in F. fields F. apply fa_number in F0. meet.
    match goal with H : num w 1 (salg_code _) _ _ |- _ => destruct (code_in _ _ _ _ _ _ _ _ H F1 eq_refl) as (_ & ->) end.
    match goal with H : num w 1 (digest_type_code _) _ _ |- _ => destruct (code_in _ _ _ _ _ _ _ _ H F2 eq_refl) as (I & _) end.
    rewrite N in I. cbn in I. one_of I; discriminate.
  Qed.
  Lemma conv_types ts p e : bitmaps w c ts p e -> Forall (decodable c) ts.
  Proof. intros (ws & _ & _ & _ & I & _). apply Forall_forall. intros t H. apply I in H. destruct H as (n & _ & (D & _)). exact D. Qed.
  Lemma conv_understood x m : rdata_typed c x -> laid (pieces w c x) q m -> fields_at w (rfc_fields x) q (length w) -> understood c x.
  Proof.
    intros T H F. pose proof (proj2 T) as T'. destruct x; try exact I; cbn [understood]; cbn beta iota in T'; try (eapply conv_ds; eassumption); cbn [pieces laid] in H; cbn [rfc_fields] in F.
    - next F. next F. fields F. apply fa_number in F0, F1. destruct F0 as (_ & ->), F1 as (_ & ->). destruct (apl_afd x) as [a|a]; cbn [laid afd_width afd_number] in *;
        destruct H as (? & (_ & ->) & ? & (_ & ->) & ? & H & _); eapply even_address; try eassumption; lia.
    - open_laid H. fields F. match goal with H : num w 1 (alg_code _) _ _ |- _ => destruct (code_in _ _ _ _ _ _ _ _ H F0 eq_refl) as (_ & ->) end.
      match goal with H : num w 1 (fptype_code _) _ _ |- _ => destruct (code_in _ _ _ _ _ _ _ _ H F1 eq_refl) as (_ & ->) end.
      apply fa_octets in F2. destruct F2 as (_ & E2). match goal with H : str w _ _ _ |- _ => destruct H as (_ & ? & _ & _) end. lia.
    - open_laid H. cbn [app] in F. next F. next F. next F. apply fa_number in F0, F1. meet.
      match goal with H : num w 1 (alg_code _) _ _ |- _ => destruct (code_in _ _ _ _ _ _ _ _ H F2 eq_refl) as (I & ->) end. split; [apply (conv_alg _ _ I eq_refl)|].
      intros G. rewrite G in *. cbn [gateway_fields app gateway_at] in *. fields F. match goal with H : field_at w (Octets _) _ _ |- _ => apply fa_octets in H; destruct H as (_ & E3) end.
      match goal with H : rest w _ _ _ |- _ => destruct H as (Ep & _) end. match goal with H : num_such _ _ _ _ _ |- _ => destruct H as (? & _ & ((? & _) & ->)) end.
      apply (f_equal (@length N)) in Ep. rewrite skipn_length in Ep. lia.
    - destruct H as (? & (D & _) & _). exact D.
    - destruct H as (? & _ & ? & H & _). apply conv_types in H. exact H.
    - destruct H as (e1 & N1 & e2 & N2 & e3 & N3 & e4 & O4 & e5 & O5 & e6 & S6 & _). cbn [app] in F. next F. next F. apply fa_number in F0. meet.
      destruct (code_in _ _ _ _ _ _ _ _ N2 F1 eq_refl) as (I & ->). split; [apply (conv_alg _ _ I eq_refl)|]. intros Er. rewrite Er in S6. cbn [servers] in S6. destruct S6 as (L & C & ->). inversion C; subst. lia.
    - destruct H as (? & _ & ? & _ & ? & H & _). apply conv_types in H. exact H.
    - destruct H as (e1 & _ & e2 & _ & e3 & (all & C & _ & _ & I) & _). apply Forall_forall. intros y Iy. apply I in Iy. destruct Iy as (b & a & -> & _).
      assert (D : exists p' m', param_at w p' y m').
      { clear - C. revert e2 C. induction b as [|z b IH]; intros e2 C; cbn [app] in C; inversion C; subst; [eauto|]. eapply IH. eassumption. }
      destruct D as (p' & m' & (_ & D & len & _ & V)). split; [exact D|]. destruct y; try exact Logic.I. destruct V as (_ & raw & Cr & _ & Ir). apply Forall_forall. intros k Ik. apply Ir in Ik.
      clear - Cr Ik. remember (p' + 4)%nat as z. clear Heqz. revert z Cr. induction raw as [|k' raw IH]; intros z Cr; [destruct Ik|]. inversion Cr; subst. destruct Ik as [->|Ik]; [|eapply IH; eassumption].
      match goal with H : key_at _ _ _ _ |- _ => apply H end.
    - destruct H as (? & _ & ? & _ & ? & _ & ? & (D1 & _) & ? & (D2 & _) & _). auto.
    - destruct H as (e1 & (f & _ & N1) & e2 & (raw & NE & S & _) & _). fields F. apply fa_number in F0. destruct N1 as (_ & ->), F0 as (_ & ->). apply fa_str in F1.
      destruct (string_unique _ _ _ _ _ _ S F1) as (-> & _). exact NE.
  Qed.

  (** Names. *)
  Lemma octet_unique p n n' : octet_at w p n -> octet_at w p n' -> n = n'.
  Proof. unfold octet_at. intros E E'. rewrite E in E'. injection E' as E'. lia. Qed.
  Ltac tn := match goal with H : In _ _ |- _ => cbn in H; repeat destruct H as [H|H]; try contradiction end.
  Lemma conv_hip l : forall p e, fields_at w (map DomainName l) p e -> forall l' p', consecutive (name_at w 191) p l' p' -> (p' < e)%nat -> e = length w -> forall f k, name_at w 191 p' f k -> rfc_name_at w p' f k.
  Proof.
    induction l as [|x l IH]; intros p e F l' p' C L E f k N; cbn [map] in F.
    - apply fa_nil in F. subst p. apply consecutive_start in C. lia.
    - next F. inversion C as [|? y m' ? ? H' L' C2]; subst; [eapply same_name; eassumption|]. apply name_strict in F0. destruct (name_at_unique _ _ _ _ _ _ B H' (rfc_is_name _ _ _ F0)) as (-> & ->).
      eapply IH; try eassumption. reflexivity.
  Qed.
  Lemma conv_names x : rdata_typed c x -> fields_at w (rfc_fields x) q (length w) -> forall p f e, name_place w (rdata_type x) q p -> name_at w 191 p f e -> rfc_name_at w p f e.
  Proof.
    intros T F p f e P N. inversion P as [t q' I|t q' g p' I N1|t q' I|q'|q'|q' i j k Oi Oj Ok|q' G|q' hl pl fs p' Oh Op C Lp]; subst.
    - tn; destruct x; try discriminate; cbn [rfc_fields] in F; next F; eapply same_name; eassumption.
    - tn; destruct x; try discriminate; cbn [rfc_fields] in F; next F; next F; apply name_strict in F0; destruct (name_at_unique _ _ _ _ _ _ B N1 (rfc_is_name _ _ _ F0)) as (-> & ->); eapply same_name; eassumption.
    - tn; destruct x; try discriminate; cbn [rfc_fields app] in F; next F; next F; apply fa_number in F0; destruct F0 as (_ & ->); eapply same_name; eassumption.
    - destruct x; try discriminate. cbn [rfc_fields] in F. do 4 next F. apply fa_number in F0, F1, F2. destruct F0 as (_ & ->), F1 as (_ & ->), F2 as (_ & ->).
      replace (q + 2 + 2 + 2)%nat with (q + 6)%nat in F3 by lia. eapply same_name; eassumption.
    - destruct x; try discriminate. cbn [rfc_fields] in F. do 8 next F. apply fa_reg in F0, F1. destruct F0 as (? & _ & _ & ->), F1 as (? & _ & _ & ->). apply fa_number in F2, F3, F4, F5, F6.
      destruct F2 as (_ & ->), F3 as (_ & ->), F4 as (_ & ->), F5 as (_ & ->), F6 as (_ & ->).
      replace (q + 2 + 1 + 1 + 4 + 4 + 4 + 2)%nat with (q + 18)%nat in F7 by lia. eapply same_name; eassumption.
    - destruct x; try discriminate. cbn [rfc_fields] in F. do 6 next F. apply fa_number in F0, F1. destruct F0 as (_ & ->), F1 as (_ & ->). pose proof (proj1 (field_start w) _ _ _ F2). apply fa_prefixed in F2. destruct F2 as ((F2 & _) & G2).
      pose proof (proj2 (field_start w) _ _ _ G2). apply number1 in F2.
      apply fa_str in F3, F4. destruct F3 as (F3 & _ & _ & ->), F4 as (F4 & _ & _ & ->). replace (q + 2 + 2)%nat with (q + 4)%nat in * by lia.
      pose proof (octet_unique _ _ _ Oi F2). replace (q + 5 + i)%nat with m1 in Oj by lia. pose proof (octet_unique _ _ _ Oj F3).
      replace (q + 6 + i + j)%nat with (m1 + 1 + length (na_service x))%nat in Ok by lia. pose proof (octet_unique _ _ _ Ok F4).
      match type of F5 with field_at _ _ ?z _ => replace z with (q + 7 + i + j + k)%nat in F5 by lia end. eapply same_name; eassumption.
    - destruct x; try discriminate. cbn [rfc_fields app] in F. do 3 next F. apply fa_number in F0, F1. apply fa_reg in F2. destruct F0 as (_ & ->), F1 as (F1 & ->), F2 as (? & _ & _ & ->).
      apply number1 in F1. unfold octet_at in G. rewrite F1 in G. injection G as G. destruct (ip_gw x); try discriminate G. cbn [gateway_fields app] in F. next F.
      replace (q + 1 + 1 + 1)%nat with (q + 3)%nat in F0 by lia. eapply same_name; eassumption.
    - destruct x; try discriminate. cbn [rfc_fields app] in F. do 5 next F. apply fa_number in F0, F2. apply fa_reg in F1. destruct F0 as (F0 & ->), F1 as (? & _ & _ & ->), F2 as (F2 & ->).
      apply number1 in F0. pose proof (octet_unique _ _ _ Oh F0). replace (q + 1 + 1)%nat with (q + 2)%nat in * by lia. apply u16_number in F2; [|exact B]. pose proof (u16_unique _ _ _ _ Op F2).
      apply fa_octets in F3, F4. destruct F3 as (_ & ->), F4 as (_ & ->).
      match type of F with fields_at _ _ ?z _ => replace z with (q + 4 + hl + N.to_nat pl)%nat in F by lia end.
      destruct (hip_rv x) as [l|]; [eapply conv_hip; try eassumption; reflexivity|]. apply fa_nil in F. apply consecutive_start in C. lia.
  Qed.

  Lemma conv_flags fs : forall p e, (e <= length w)%nat -> fields_at w (map (fun f => Registered 1 (number_in iana_nflag f)) fs) p e -> forall s, octets w s p e -> Forall (fun o => exists f, In (f, o) iana_nflag) s.
  Proof.
    induction fs as [|f fs IH]; intros p e Le H s O; cbn [map] in H.
    - apply fa_nil in H. subst e. destruct O as (_ & E). destruct s; [constructor|cbn [length] in E; lia].
    - next H. pose proof (proj2 (field_start w) _ _ _ H). apply fa_reg in F. destruct F as (o & I & (N & ->)). apply number1 in N. destruct O as (O & E). destruct s as [|o' s]; [cbn [length] in E; lia|].
      apply octet_first in O. destruct O as (N' & O). rewrite N in N'. injection N' as <-. constructor; [eauto|]. apply (IH _ _ Le H). split; [exact O|cbn [length] in E; lia].
  Qed.
  Lemma conv_windows ts p ws : field_at w (TypeBitMaps ts) p (length w) -> windows_at w p ws -> windows_strict ws.
  Proof.
    intros F W. apply fa_other in F; [|exact I]. destruct F as (bs & F & O & E). apply bitmaps_inv in F. destruct F as (ws' & -> & Wo & M & _). apply windows_there in O; [|exact Wo]. rewrite <- E in O.
    rewrite (consecutive_unique _ (window_unique w) _ _ _ _ W O). split; assumption.
  Qed.
  Lemma conv_apl n k a p : (k <= 16)%nat -> (forall bs, afd_octets k a bs -> (length bs mod 2 = 0)%nat) -> field_at w (AddressPart n k a) p (length w) ->
    forall o, nth_error w p = Some o -> (o mod 128) mod 2 = 0 /\ o mod 128 <= N.of_nat k /\ (o mod 128 <> 0 -> nth_error w (p + N.to_nat (o mod 128)) <> Some 0).
  Proof.
    intros Lk Ev F o No. apply fa_other in F; [|exact I]. destruct F as (bs & F & O & _). apply address_inv in F. destruct F as (s & -> & As). pose proof (Ev s As) as Es. apply octet_first in O. destruct O as (No' & O).
    rewrite No in No'. injection No' as ->. inversion As as [? j Lj Bs V La]; subst.
    assert (Lo : (flag n 128 + N.of_nat (length s)) mod 128 = N.of_nat (length s)) by (unfold flag; destruct n; lia). rewrite Lo. split; [lia|]. split; [lia|]. intros NZ.
    destruct s as [|z s]; [cbn [length] in NZ; lia|]. pose proof (last_octet w q Lq _ _ O ltac:(discriminate)) as Lz. rewrite Nat2N.id.
    replace (p + 1 + length (z :: s) - 1)%nat with (p + length (z :: s))%nat in Lz by lia. rewrite Lz. congruence.
  Qed.
  Lemma conv_param y p e : (e <= length w)%nat -> pkey_documented (param_key y) -> match y with PMandatory ks => Forall pkey_documented ks | _ => True end -> param_typed y ->
    fields_at w [Registered 2 (param_number y); Prefixed 2 (param_value y)] p e -> param_strict w p y e /\ (p < e)%nat.
  Proof.
    intros Le D K T F. destruct (param_there w B y p e Le D K T F) as (P & L). split; [|exact L]. split; [exact P|].
    fields F. apply fa_reg in F0. destruct F0 as (v & _ & (_ & ->)). apply fa_prefixed in F1. destruct F1 as ((G & _) & V). replace (p + 2 + 2)%nat with (p + 4)%nat in * by lia.
    split; [apply u16_number; assumption|]. destruct y as [l|l| |l|l|l|l|l l'|]; try exact I. intros raw C. cbn [param_value] in V. cbn [param_typed] in T.
    assert (C' : consecutive (key_at w) (p + 4) l e).
    { revert V K. clear - B. generalize (p + 4)%nat. induction l as [|k ks IH]; intros q' V K; cbn [map] in V; [apply fa_nil in V; subst; constructor|].
      next V. apply key_num in F. inversion K; subst. destruct F as (F & ->). apply (one_more _ _ _ (q' + 2)%nat); [|lia|apply IH; assumption]. split; [apply u16_number; assumption|auto]. }
    rewrite (consecutive_unique _ (key_unique w) _ _ _ _ C C'). apply T.
  Qed.
  Lemma conv_params l l' : forall p, consecutive (param_at w) p l (length w) -> consecutive (param_at w) p l' (length w) -> l = l'.
  Proof.
    revert l'. induction l as [|x l IH]; intros l' p C C'; inversion C as [|? ? m ? ? H L C2]; subst; inversion C' as [|? x' m' ? ? H' L' C2']; subst; [reflexivity| | |].
    - apply consecutive_start in C2'. lia.
    - apply consecutive_start in C2. lia.
    - pose proof (consecutive_start _ _ _ _ C2). pose proof (consecutive_start _ _ _ _ C2'). destruct (param_unique _ _ _ _ _ H H') as (-> & ->); [assumption..|]. f_equal. eapply IH; eassumption.
  Qed.
  Lemma conv_dnskey x f : fields_at w (rfc_fields (DDNSKEY x)) q (length w) -> u16_at w q f -> In f [0; 1; 256; 257].
  Proof.
    intros F U. cbn [rfc_fields] in F. next F. apply fa_number in F0. destruct F0 as (F0 & _). apply u16_number in F0; [|exact B]. rewrite (u16_unique _ _ _ _ U F0).
    destruct (dk_zone x), (dk_sep x); cbn; tauto.
  Qed.
  Lemma conv_data x m : rdata_typed c x -> laid (pieces w c x) q m -> fields_at w (rfc_fields x) q (length w) -> data_strict c w q x.
  Proof.
    intros T H F. pose proof (conv_understood x m T H F) as U. pose proof (rdata_there c w B x q T U F) as L.
    split; [intros m' H'; apply (laid_unique x); [exact H'|exact L|eapply laid_bound; exact H'|apply le_n]|]. split; [apply conv_names; assumption|].
    pose proof (proj2 T) as T'. destruct x; try exact I; cbn [understood] in U; cbn beta iota in T'; try exact U; try (apply U); try exact (fun f => conv_dnskey _ f F); cbn [rfc_fields] in F.
    - intros raw C. apply (fa_map w CharString (string_at w)) in F; [|intros y p e Y; apply fa_str in Y; pose proof (string_at_end _ _ _ _ Y); split; [exact Y|lia]].
      rewrite (consecutive_unique _ (string_unique w) _ _ _ _ C F). eapply Forall_impl; [|exact T']. intros s. apply utf8_valid_iff.
    - intros s e S. next F. next F. next F. apply fa_number in F0, F1. destruct F0 as (_ & ->), F1 as (_ & ->). replace (q + 2 + 2)%nat with (q + 4)%nat in * by lia. pose proof (proj2 (field_start w) _ _ _ F).
      apply fa_prefixed in F2. destruct F2 as ((F2 & _) & G). pose proof (proj2 (field_start w) _ _ _ G). apply number1 in F2. destruct S as (O & L' & S & ->). pose proof (octet_unique _ _ _ O F2) as E.
      eapply conv_flags; [|exact G|]; [assumption|]. split; [split; [exact L'|exact S]|lia].
    - intros all C. apply (fa_flat w _ (option_at w)) in F; [|intros y p e _ _; apply (option_there w B)|apply le_n]. rewrite (consecutive_unique _ (option_unique w) _ _ _ _ C F). apply T'.
    - next F. next F. fields F. apply fa_number in F0, F1. destruct F0 as (_ & ->), F1 as (_ & ->). replace (q + 2 + 1)%nat with (q + 3)%nat in * by lia. eapply conv_apl; [|exact U|exact F2].
      destruct (apl_afd x); cbn [afd_width]; lia.
    - intros f k ws N W. fields F. apply (fa_name w B) in F0. destruct (name_at_unique _ _ _ _ _ _ B N F0) as (_ & ->). eapply conv_windows; eassumption.
    - intros ws W. next F. next F. fields F. apply fa_number in F0, F1. destruct F0 as (_ & ->), F1 as (_ & ->). replace (q + 4 + 2)%nat with (q + 6)%nat in * by lia. eapply conv_windows; eassumption.
    - intros f k all N C. cbn [app] in F. next F. next F. apply fa_number in F0. destruct F0 as (_ & ->). apply (fa_name w B) in F1. destruct (name_at_unique _ _ _ _ _ _ B N F1) as (_ & ->).
      destruct T' as (_ & S & Tp). rewrite Forall_forall in Tp, U.
      assert (C2 : consecutive (param_strict w) m1 (sv_params x) (length w)).
      { apply (fa_flat w (fun p => [Registered 2 (param_number p); Prefixed 2 (param_value p)])) with (e := length w); [|apply le_n|exact F].
        intros y p e I Le. apply conv_param; [exact Le|apply U, I|apply U, I|apply Tp, I]. }
      assert (all = sv_params x) as -> by (apply (conv_params _ _ m1); [exact C|]; eapply consecutive_mono; [|exact C2]; intros ? ? ? P; apply P). auto.
    - fields F. apply fa_number in F0. destruct F0 as (F0 & ->). apply number1 in F0. apply fa_str in F1. split.
      + intros o E. rewrite F0 in E. injection E as <-. destruct (caa_critical x); cbn; tauto.
      + intros s e S. destruct (string_unique _ _ _ _ _ _ S F1) as (-> & _). apply utf8_valid_iff, T'.
  Qed.
End Types.

Section Message.
  Context (c : cfg) (d : bytes) (B : byte_list d) (A : allocatable d).
  Lemma conv_question p q e e' : question_at c d p q e -> fields_at d (question_fields c q) p e' -> question_strict c d p q e /\ e' = e.
  Proof.
    intros H F. unfold question_fields in F. next F. next F. next F. apply fa_nil in F. subst m1. apply name_strict in F0. pose proof (rfc_is_name d B _ _ _ F0) as N0.
    apply fa_reg in F1, F2. destruct F1 as (? & _ & (_ & ->)), F2 as (v & (k & I & ->) & (F2 & ->)). apply u16_number in F2; [|exact B].
    assert (E : (m + 2 + 2)%nat = e).
    { destruct H as (k' & v' & N & _ & _ & _ & _ & _ & ->). destruct (name_at_unique _ _ _ _ _ _ B N N0) as (_ & ->). lia. }
    split; [|exact E]. split; [exact H|]. intros k' v' N V. destruct (name_at_unique _ _ _ _ _ _ B N N0) as (_ & ->). split; [exact F0|]. intros M. rewrite (u16_unique _ _ _ _ V F2), M.
    cbn [andb flag]. destruct (q_class q); cbn in I; one_of I; try discriminate; injection I as <-; reflexivity.
  Qed.
  Lemma conv_record p r e e' : rdata_typed c (rr_data r) -> record_on_wire c d p r e -> fields_at d (record_fields c r) p e' -> record_strict c d p r e /\ e' = e.
  Proof.
    intros Ty H F. unfold record_fields in F. do 5 next F. apply fa_nil in F. subst m3. apply name_strict in F0. pose proof (rfc_is_name d B _ _ _ F0) as N0.
    apply fa_reg in F1, F2. apply fa_number in F3. destruct F1 as (? & _ & (_ & ->)), F2 as (v & (k & I & ->) & (F2 & ->)), F3 as (_ & ->). apply u16_number in F2; [|exact B].
    pose proof (proj1 (field_start d) _ _ _ F4). pose proof F4 as F5. apply fa_prefixed in F4. destruct F4 as ((F4 & _) & G). apply u16_number in F4; [|exact B]. pose proof (proj2 (field_start d) _ _ _ G).
    replace (m + 2 + 2 + 4)%nat with (m + 8)%nat in * by lia. replace (m + 8 + 2)%nat with (m + 10)%nat in * by lia.
    destruct H as (k' & v' & len & N & T & D & Tx & V & C & Pl & U & TTL & Ln & Ee & Le & m' & Lm & L) eqn:X. clear X.
    destruct (name_at_unique _ _ _ _ _ _ B N N0) as (_ & ->). pose proof (u16_unique _ _ _ _ Ln F4) as El. assert (E : e' = e) by lia. subst e'.
    split; [|reflexivity]. split; [exact H|]. intros k' w' N' V'. destruct (name_at_unique _ _ _ _ _ _ B N' N0) as (_ & ->). split; [exact F0|]. split.
    - intros M. rewrite M in *. cbn [andb flag] in *. rewrite (u16_unique _ _ _ _ V' F2). pose proof (u16_unique _ _ _ _ V F2) as Ev. destruct I as [I|I].
      + destruct (rr_class r); cbn in I; one_of I; try discriminate; injection I as <-; reflexivity.
      + rewrite I in C. cbn [rclass_code] in C. lia.
    - assert (Lf : length (firstn e d) = e) by (rewrite firstn_length; lia). apply (conv_data c (firstn e d)) with (m := m').
      + apply byte_list_firstn, B.
      + unfold allocatable in *. lia.
      + lia.
      + exact Ty.
      + exact L.
      + rewrite Lf. apply (proj2 (fields_prefix d e)); [exact G|apply le_n].
  Qed.
  Lemma conv_all {X} (fs : X -> list field) (R S : nat -> X -> nat -> Prop) (Q : X -> Prop) :
    (forall p x e e', Q x -> R p x e -> fields_at d (fs x) p e' -> S p x e /\ e' = e) ->
    forall l p e e', Forall Q l -> consecutive R p l e -> fields_at d (flat_map fs l) p e' -> consecutive S p l e /\ e' = e.
  Proof.
    intros H. induction l as [|x l IH]; intros p e e' Ql C F; cbn [flat_map] in F; inversion C; subst.
    - apply fa_nil in F. subst e'. split; [constructor|reflexivity].
    - inversion Ql; subst. apply fa_app in F. destruct F as (m1 & F1 & F2). match goal with Hq : Q x, Hr : R p x _, Hf : Forall Q l, Hc : consecutive R _ l e |- _ => destruct (H _ _ _ _ Hq Hr F1) as (Hs & ->); destruct (IH _ _ _ Hf Hc F2) as (Hl & ->) end.
      split; [|reflexivity]. econstructor; eassumption.
  Qed.
  Lemma conv_packet p e : packet_try_from c d = Ok p -> fields_at d (message_fields c p) 0 e -> packet_strict c d p.
  Proof.
    intros H F. pose proof (packet_try_parsed c d p B H) as (_ & _ & _ & Rp). apply packet_iff in H; [|exact B]. destruct H as (e' & H). apply packet_wire in H; [|exact B|exact A].
    destruct H as (_ & _ & _ & _ & _ & e1 & e2 & e3 & C1 & C2 & C3 & C4). exists e1, e2, e3, e'. unfold message_fields in F. apply fa_app in F. destruct F as (m & F0 & F).
    assert (m = 12)%nat as ->.
    { unfold header_fields in F0. do 7 (next F0; apply fa_number in F1; destruct F1 as (_ & ->)). apply fa_nil in F0. cbn in F0. lia. }
    unfold records_of in Rp. rewrite !Forall_app in Rp. destruct Rp as (R1 & R2 & R3).
    assert (Y : forall rs p e e', Forall (rr_parsed c) rs -> consecutive (record_on_wire c d) p rs e -> fields_at d (flat_map (record_fields c) rs) p e' -> consecutive (record_strict c d) p rs e /\ e' = e).
    { apply conv_all. intros q r z z' (_ & Ty & _). apply conv_record, Ty. }
    apply fa_app in F. destruct F as (n1 & F1 & F). destruct (conv_all _ _ (question_strict c d) (fun _ => True) (fun p x e e' _ => conv_question p x e e') _ _ _ _ (proj2 (Forall_forall _ _) (fun _ _ => I)) C1 F1) as (D1 & ->).
    apply fa_app in F. destruct F as (n2 & F2 & F). destruct (Y _ _ _ _ R1 C2 F2) as (D2 & ->).
    apply fa_app in F. destruct F as (n3 & F3 & F4). destruct (Y _ _ _ _ R2 C3 F3) as (D3 & ->). destruct (Y _ _ _ _ R3 C4 F4) as (D4 & _). auto.
  Qed.
End Message.
