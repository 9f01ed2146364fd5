(** * A layout determines the octets *)
From Coq Require Import Lia ZifyNat ZifyN ZifyBool Sorting.Sorted.
From Verif Require Import Base Header Types RDataBasic Bitmap Svcb RDataSec RData Packet BaseFacts HeaderSpec CodeSpec RDataSpec FieldSpec LayoutSpec LayoutFacts RecordSpec.
Ltac Zify.zify_post_hook ::= Z.div_mod_to_equations.

Lemma value_inj a b : length a = length b -> byte_list a -> byte_list b -> value_of a = value_of b -> a = b.
Proof.
  intros L A B E. change (unbe a = unbe b) in E. rewrite <- (be_unbe a A), <- (be_unbe b B), L, E. reflexivity.
Qed.
Lemma name_unique f : forall a b, name_octets f a -> name_octets f b -> a = b.
Proof.
  induction f as [|l f IH]; intros a b A B; inversion A; inversion B; subst; [reflexivity|]. do 2 f_equal. apply IH; assumption.
Qed.
Lemma last_repeat0 (k : nat) (l : bytes) : k <> 0%nat -> last (l ++ repeat 0 k) 1 = 0.
Proof.
  intros H. destruct k; [contradiction|]. replace (S k) with (k + 1)%nat by lia. rewrite repeat_app, app_assoc. apply last_last.
Qed.
Lemma afd_unique w v a b : afd_octets w v a -> afd_octets w v b -> a = b.
Proof.
  intros [a' k L B E Z] [b' k' L' B' E' Z']. assert (Q : a' ++ repeat 0 k = b' ++ repeat 0 k').
  { assert (R : forall n, byte_list (repeat 0 n)) by (intros n; apply Forall_forall; intros x I; apply repeat_spec in I; subst; reflexivity).
    apply value_inj; [rewrite !app_length, !repeat_length; lia|apply Forall_app; split; [assumption|apply R]|apply Forall_app; split; [assumption|apply R]|congruence]. }
  assert (D : forall (x y : bytes) n, x ++ repeat 0 n = y -> last y 1 <> 0 -> n = 0%nat).
  { intros x y n <- H. destruct (Nat.eq_dec n 0) as [->|N]; [reflexivity|]. exfalso. apply H, last_repeat0, N. }
  destruct (Nat.le_gt_cases k k') as [H|H].
  - replace k' with ((k' - k) + k)%nat in Q by lia. rewrite repeat_app, app_assoc in Q. apply app_inv_tail in Q. symmetry in Q.
    pose proof (D _ _ _ Q Z) as K. rewrite K in Q. cbn in Q. rewrite app_nil_r in Q. auto.
  - replace k with ((k - k') + k')%nat in Q by lia. rewrite repeat_app, app_assoc in Q. apply app_inv_tail in Q.
    pose proof (D _ _ _ Q Z') as K. rewrite K in Q. cbn in Q. rewrite app_nil_r in Q. auto.
Qed.

(** ** Type bitmaps *)
Lemma byte_bits x y : x < 256 -> y < 256 -> (forall i, i < 8 -> N.testbit x (7 - i) = N.testbit y (7 - i)) -> x = y.
Proof.
  intros X Y H. apply N.bits_inj. intros i. destruct (N.lt_ge_cases i 8) as [L|L].
  - replace i with (7 - (7 - i)) by lia. apply H. lia.
  - assert (T : forall z, z < 256 -> N.testbit z i = false).
    { intros z Hz. replace z with (z mod 2 ^ 8) by (apply N.mod_small; exact Hz). apply N.mod_pow2_bits_high. exact L. }
    rewrite !T by assumption. reflexivity.
Qed.
Lemma bit_set_nth bm p : bit_set bm p <-> (N.to_nat (p / 8) < length bm)%nat /\ N.testbit (nth (N.to_nat (p / 8)) bm 0) (7 - p mod 8) = true.
Proof.
  unfold bit_set. split.
  - intros (o & E & T). split; [apply nth_error_Some; congruence|]. rewrite (nth_error_nth _ _ 0 E). exact T.
  - intros (L & T). exists (nth (N.to_nat (p / 8)) bm 0). split; [apply nth_error_nth'; exact L|exact T].
Qed.
Lemma bit_small bm p : (length bm <= 32)%nat -> bit_set bm p -> p < 256.
Proof. intros L H. apply bit_set_nth in H. lia. Qed.
Lemma some_bit x : x <> 0 -> x < 256 -> exists i, i < 8 /\ N.testbit x (7 - i) = true.
Proof.
  intros Z L. exists (7 - N.log2 x). assert (N.log2 x < 8) by (apply N.log2_lt_pow2; [lia|exact L]). split; [lia|].
  replace (7 - (7 - N.log2 x)) with (N.log2 x) by lia. apply N.bit_log2, Z.
Qed.
Lemma last_bit bm : (1 <= length bm)%nat -> byte_list bm -> last bm 0 <> 0 -> exists p, bit_set bm p /\ N.to_nat (p / 8) = (length bm - 1)%nat.
Proof.
  intros L B Z. destruct (exists_last (l := bm)) as (l & x & ->); [destruct bm; [cbn in L; lia|discriminate]|]. rewrite last_last in Z.
  apply Forall_app in B. destruct B as [_ B]. apply Forall_inv in B. destruct (some_bit x Z B) as (i & I & T). rewrite app_length. cbn [length].
  exists (8 * N.of_nat (length l) + i). replace ((8 * N.of_nat (length l) + i) / 8) with (N.of_nat (length l)) by lia. split; [|lia].
  apply bit_set_nth. replace ((8 * N.of_nat (length l) + i) / 8) with (N.of_nat (length l)) by lia. rewrite Nnat.Nat2N.id, app_length. cbn [length]. split; [lia|].
  rewrite app_nth2, Nat.sub_diag by lia. cbn [nth]. replace ((8 * N.of_nat (length l) + i) mod 8) with i by lia. exact T.
Qed.
Lemma bitmap_ext a b : byte_list a -> byte_list b -> length a = length b -> (forall p, bit_set a p <-> bit_set b p) -> a = b.
Proof.
  intros A B L H. apply (nth_ext a b 0 0 L). intros n Hn. unfold byte_list in A, B. rewrite Forall_forall in A, B.
  apply byte_bits; [apply A, nth_In; lia|apply B, nth_In; lia|]. intros i Hi. specialize (H (8 * N.of_nat n + i)). rewrite !bit_set_nth in H.
  replace ((8 * N.of_nat n + i) / 8) with (N.of_nat n) in H by lia. replace ((8 * N.of_nat n + i) mod 8) with i in H by lia. rewrite Nnat.Nat2N.id in H.
  destruct (N.testbit (nth n a 0) (7 - i)), (N.testbit (nth n b 0) (7 - i)); try reflexivity.
  - symmetry. apply H. auto.
  - apply H. split; [lia|reflexivity].
Qed.
Lemma sorted_fst_unique (ws : list (N * bytes)) x y : StronglySorted N.lt (map fst ws) -> In x ws -> In y ws -> fst x = fst y -> x = y.
Proof.
  induction ws as [|z ws IH]; intros S X Y E; [destruct X|]. cbn [map] in S. inversion S as [|? ? S' F]; subst. rewrite Forall_forall in F.
  destruct X as [<-|X], Y as [<-|Y]; [reflexivity|..|auto].
  - exfalso. specialize (F (fst y) (in_map fst _ _ Y)). lia.
  - exfalso. specialize (F (fst x) (in_map fst _ _ X)). lia.
Qed.
Lemma sorted_fst_ext (a : list (N * bytes)) : forall b, StronglySorted N.lt (map fst a) -> StronglySorted N.lt (map fst b) -> (forall x, In x a <-> In x b) -> a = b.
Proof.
  induction a as [|x a IH]; intros [|y b] A B H.
  - reflexivity.
  - exfalso. apply (H y). left; reflexivity.
  - exfalso. apply (H x). left; reflexivity.
  - cbn [map] in A, B. inversion A as [|? ? A' FA]; inversion B as [|? ? B' FB]; subst. rewrite Forall_forall in FA, FB.
    assert (x = y).
    { destruct (proj1 (H x) (or_introl eq_refl)) as [|X]; [auto|]. destruct (proj2 (H y) (or_introl eq_refl)) as [|Y]; [auto|].
      specialize (FB _ (in_map fst _ _ X)). specialize (FA _ (in_map fst _ _ Y)). lia. }
    subst y. f_equal. apply IH; [assumption..|]. intros z. split; intros Z.
    + destruct (proj1 (H z) (or_intror Z)) as [<-|]; [|assumption]. specialize (FA _ (in_map fst _ _ Z)). lia.
    + destruct (proj2 (H z) (or_intror Z)) as [<-|]; [|assumption]. specialize (FB _ (in_map fst _ _ Z)). lia.
Qed.
Lemma windows_in a b x : windows_ok a -> windows_minimal a -> windows_ok b -> windows_minimal b -> (forall n, marked a n <-> marked b n) -> In x a -> In x b.
Proof.
  intros (SA & FA) MA (SB & FB) MB H I. unfold windows_minimal in *. rewrite Forall_forall in FA, FB, MA, MB.
  assert (K : forall (a b : list (N * bytes)) x p, (forall x, In x a -> fst x < 256 /\ (1 <= length (snd x) <= 32)%nat /\ byte_list (snd x)) ->
            (forall x, In x b -> fst x < 256 /\ (1 <= length (snd x) <= 32)%nat /\ byte_list (snd x)) ->
            (forall n, marked a n -> marked b n) -> In x a -> bit_set (snd x) p -> exists y, In y b /\ fst y = fst x /\ bit_set (snd y) p).
  { clear. intros a b x p FA FB H I T. destruct (H (256 * fst x + p)) as (y & q & J & U & E); [exists x, p; auto|].
    assert (p < 256) by (apply (bit_small (snd x)); [apply FA, I|exact T]). assert (q < 256) by (apply (bit_small (snd y)); [apply FB, J|exact U]).
    assert (fst y = fst x) by lia. exists y. split; [exact J|]. split; [assumption|]. replace p with q by lia. exact U. }
  destruct (FA x I) as (X1 & X2 & X3). destruct (last_bit (snd x)) as (p & P & PL); [apply X2|exact X3|apply MA, I|].
  destruct (K a b x p FA FB (fun n => proj1 (H n)) I P) as (y & J & E & Y). destruct (FB y J) as (Y1 & Y2 & Y3).
  assert (BITS : forall q, bit_set (snd x) q <-> bit_set (snd y) q).
  { intros q. split; intros T.
    - destruct (K a b x q FA FB (fun n => proj1 (H n)) I T) as (y' & J' & E' & T'). replace y with y'; [exact T'|]. apply (sorted_fst_unique b); [assumption..|congruence].
    - destruct (K b a y q FB FA (fun n => proj2 (H n)) J T) as (x' & I' & E' & T'). replace x with x'; [exact T'|]. apply (sorted_fst_unique a); [assumption..|congruence]. }
  assert (LEN : length (snd x) = length (snd y)).
  { apply bit_set_nth in Y. destruct (last_bit (snd y)) as (q & Q & QL); [apply Y2|exact Y3|apply MB, J|]. apply BITS in Q. apply bit_set_nth in Q. destruct Q as (Q & _), Y as (Y & _). rewrite PL in Y. rewrite QL in Q. clear - Q Y X2 Y2. lia. }
  replace x with y; [exact J|]. destruct x as [xf xs], y as [yf ys]. cbn [fst snd] in *. f_equal; [exact E|]. symmetry. apply bitmap_ext; assumption.
Qed.
Lemma windows_unique a b : windows_ok a -> windows_minimal a -> windows_ok b -> windows_minimal b -> (forall n, marked a n <-> marked b n) -> a = b.
Proof.
  intros A MA B MB H. apply sorted_fst_ext; [apply A|apply B|]. intros x. split; apply windows_in; try assumption. intros n. symmetry. apply H.
Qed.

(** ** Fields *)
Fixpoint definite (f : field) : Prop :=
  match f with
  | Registered _ such => forall x y, such x -> such y -> x = y
  | Prefixed _ fs => fold_right (fun g P => definite g /\ P) True fs
  | _ => True
  end.
Definition all_definite (fs : list field) : Prop := fold_right (fun g P => definite g /\ P) True fs.
Lemma definite_app a b : all_definite (a ++ b) <-> all_definite a /\ all_definite b.
Proof. unfold all_definite. induction a; cbn; [tauto|]. rewrite IHa. tauto. Qed.
Lemma definite_map {X} (f : X -> field) l : (forall x, definite (f x)) -> all_definite (map f l).
Proof. intros H. induction l; cbn; [exact I|]. auto. Qed.
Lemma definite_flat {X} (f : X -> list field) l : (forall x, all_definite (f x)) -> all_definite (flat_map f l).
Proof. intros H. induction l; [exact I|]. cbn [flat_map]. apply definite_app. auto. Qed.

Scheme fo_ind := Induction for field_octets Sort Prop
  with fso_ind := Induction for fields_octets Sort Prop.
Combined Scheme octets_ind from fo_ind, fso_ind.
Lemma bitmaps_inv ts bs : field_octets (TypeBitMaps ts) bs -> exists ws, bs = flat_map window_octets ws /\ windows_ok ws /\ windows_minimal ws /\
  forall n, marked ws n <-> exists t, In t ts /\ In (t, n) iana_types.
Proof. intros H. inversion H; subst. eauto 6. Qed.
Lemma prefixed_inv w fs bs : field_octets (Prefixed w fs) bs -> exists l b, bs = l ++ b /\ fields_octets fs b /\ length l = w /\ byte_list l /\ value_of l = N.of_nat (length b).
Proof. intros H. inversion H; subst. eauto 9. Qed.
Lemma octets_unique :
  (forall f a, field_octets f a -> forall b, definite f -> field_octets f b -> a = b) /\
  (forall fs a, fields_octets fs a -> forall b, all_definite fs -> fields_octets fs b -> a = b).
Proof.
  apply (octets_ind (fun f a _ => forall b, definite f -> field_octets f b -> a = b) (fun fs a _ => forall b, all_definite fs -> fields_octets fs b -> a = b)).
  - intros w v bs L B V b _ H. apply number_inv in H. destruct H as (L' & B' & V'). apply value_inj; congruence.
  - intros w such v bs S L B V b D H. apply registered_inv in H. destruct H as (L' & B' & S'). cbn in D. apply value_inj; [congruence|assumption..|]. apply D; congruence.
  - intros f bs H b _ H'. inversion H'; subst. eapply name_unique; eassumption.
  - intros s L b _ H. inversion H; subst. reflexivity.
  - intros x b _ H. inversion H; subst. reflexivity.
  - intros ts ws O M E b _ H. apply bitmaps_inv in H. destruct H as (ws' & -> & O' & M' & E'). f_equal. apply windows_unique; try assumption. intros n. rewrite E, E'. reflexivity.
  - intros n w a bs H b _ H'. apply address_inv in H'. destruct H' as (part & -> & P). rewrite (afd_unique _ _ _ _ H P). reflexivity.
  - intros w fs l bs H IH L B V b D H'. apply prefixed_inv in H'. destruct H' as (l' & b' & -> & F & L' & B' & V').
    assert (bs = b') as <- by (apply IH; assumption). f_equal. apply value_inj; congruence.
  - intros b _ H. apply fs_nil_inv in H. auto.
  - intros f fs a bs F IHf G IHg b (D1 & D2) H. apply fs_cons_inv in H. destruct H as (a' & b' & -> & F' & G'). f_equal; [apply IHf|apply IHg]; assumption.
Qed.

(** ** The registries assign one number to each name *)
Ltac one_of H := repeat match type of H with _ \/ _ => destruct H as [H|H]; [try discriminate H|] end; try discriminate H; try (match type of H with False => destruct H end).
Ltac by_table := unfold number_in, key_number, param_number, class_number; cbn; intros x y X Y; one_of X; one_of Y; congruence.
Lemma types_definite t : forall x y, number_in iana_types t x -> number_in iana_types t y -> x = y.
Proof. unfold number_in. intros x y X Y. apply type_number in X, Y. congruence. Qed.
Lemma qtypes_definite t : forall x y, number_in iana_qtypes t x -> number_in iana_qtypes t y -> x = y.
Proof.
  intros x y X Y. assert (K : forall n, number_in iana_qtypes t n -> qtype_code t = n); [|rewrite <- (K x X); exact (K y Y)].
  clear. unfold number_in, iana_qtypes. intros n H. apply in_app_or in H. destruct H as [H|H].
  - apply in_map_iff in H. destruct H as ((u & k) & E & I). cbn [fst snd] in E. injection E as <- <-. apply type_number in I. exact I.
  - cbn in H. repeat (destruct H as [H|H]; [injection H as <- <-; reflexivity|]). contradiction.
Qed.
Lemma salg_definite t : forall x y, number_in iana_salg t x -> number_in iana_salg t y -> x = y.
Proof. destruct t; by_table. Qed.
Lemma digest_definite t : forall x y, number_in iana_digest_type t x -> number_in iana_digest_type t y -> x = y.
Proof. destruct t; by_table. Qed.
Lemma sshfp_definite t : forall x y, number_in iana_sshfp_alg t x -> number_in iana_sshfp_alg t y -> x = y.
Proof. destruct t; by_table. Qed.
Lemma fptype_definite t : forall x y, number_in iana_fptype t x -> number_in iana_fptype t y -> x = y.
Proof. destruct t; by_table. Qed.
Lemma ipalg_definite t : forall x y, number_in iana_ipseckey_alg t x -> number_in iana_ipseckey_alg t y -> x = y.
Proof. destruct t; by_table. Qed.
Lemma nflag_definite t : forall x y, number_in iana_nflag t x -> number_in iana_nflag t y -> x = y.
Proof. destruct t; by_table. Qed.
Lemma idtype_definite t : forall x y, number_in iana_idtype t x -> number_in iana_idtype t y -> x = y.
Proof. destruct t; by_table. Qed.
Lemma usage_definite t : forall x y, number_in iana_cert_usage t x -> number_in iana_cert_usage t y -> x = y.
Proof. destruct t; by_table. Qed.
Lemma selector_definite t : forall x y, number_in iana_selector t x -> number_in iana_selector t y -> x = y.
Proof. destruct t; by_table. Qed.
Lemma matching_definite t : forall x y, number_in iana_matching t x -> number_in iana_matching t y -> x = y.
Proof. destruct t; by_table. Qed.
Lemma tserr_definite t : forall x y, number_in iana_tserr t x -> number_in iana_tserr t y -> x = y.
Proof. destruct t; by_table. Qed.
Lemma tkmode_definite t : forall x y, number_in iana_tkmode t x \/ t = TmAvailable x -> number_in iana_tkmode t y \/ t = TmAvailable y -> x = y.
Proof. destruct t; by_table. Qed.
Lemma tkerr_definite t : forall x y, number_in iana_tkerr t x \/ t = TeRcode x -> number_in iana_tkerr t y \/ t = TeRcode y -> x = y.
Proof. destruct t; by_table. Qed.
Lemma key_definite t : forall x y, key_number t x -> key_number t y -> x = y.
Proof. destruct t; by_table. Qed.
Lemma param_definite t : forall x y, param_number t x -> param_number t y -> x = y.
Proof. destruct t; by_table. Qed.
Ltac table := first [apply types_definite|apply qtypes_definite|apply salg_definite|apply digest_definite|apply sshfp_definite|apply fptype_definite|apply ipalg_definite|apply nflag_definite|apply idtype_definite|apply usage_definite|apply selector_definite|apply matching_definite|apply tserr_definite|apply tkmode_definite|apply tkerr_definite|apply key_definite|apply param_definite].
Lemma rfc_definite d : all_definite (rfc_fields d).
Proof.
  destruct d as []; cbn [rfc_fields]; unfold all_definite; cbn [fold_right app definite];
    repeat match goal with |- _ /\ _ => split end; try exact I; try table.
  - apply definite_map. intros. exact I.
  - apply (definite_map (fun f => Registered 1 (number_in iana_nflag f))). intros fl. exact (nflag_definite fl).
  - apply definite_flat. intros e. cbn. auto.
  - apply (proj2 (definite_app _ _)). split; [destruct (ip_gw x); cbn; auto|cbn; auto].
  - destruct (hip_rv x); [apply definite_map; intros; exact I|exact I].
  - apply definite_flat. intros q. cbn [all_definite fold_right definite]. split; [table|]. split; [|exact I].
    destruct q; cbn [param_value]; try (cbn; tauto); apply definite_map; intros k; [exact (key_definite k)|exact I].
Qed.
Lemma layout_exact c d bs : rdata_typed c d -> layout_ok d -> rdata_to_bytes c d = Ok bs <-> fields_octets (rfc_fields d) bs.
Proof.
  intros T L. destruct (layout_ok_bytes c d T L) as (b & E & F). rewrite E. split; [intros H; injection H as <-; exact F|].
  intros G. f_equal. apply (proj2 octets_unique _ _ F _ (rfc_definite d) G).
Qed.

(** ** Messages *)
Lemma question_definite c q : all_definite (question_fields c q).
Proof.
  unfold question_fields, all_definite. cbn [fold_right definite]. split; [exact I|]. split; [apply qtypes_definite|]. split; [|exact I].
  intros x y (j & J & ->) (k & K & ->). f_equal. revert J K. destruct (q_class q); cbn; intros J K; one_of J; one_of K; congruence.
Qed.
Lemma record_definite c r : all_definite (record_fields c r).
Proof.
  unfold record_fields, all_definite. cbn [fold_right definite]. split; [exact I|]. split; [apply types_definite|]. split; [|split; [exact I|split; [apply rfc_definite|exact I]]].
  intros x y (j & J & ->) (k & K & ->). f_equal. revert J K. unfold class_number. destruct (rr_class r); cbn; intros [J|J] [K|K]; one_of J; one_of K; congruence.
Qed.
Lemma message_definite c p : all_definite (message_fields c p).
Proof.
  unfold message_fields. apply definite_app. split; [cbn; tauto|]. apply definite_app. split; [apply definite_flat, question_definite|].
  apply definite_app. split; [apply definite_flat, record_definite|]. apply definite_app. split; apply definite_flat, record_definite.
Qed.
Lemma header_exact h bs : header_typed h -> bs = header_to_bytes h <-> fields_octets (header_fields (view h)) bs.
Proof.
  intros T. pose proof (header_layout h T) as F. split; [intros ->; exact F|]. intros G. apply (proj2 octets_unique _ _ G _); [cbn; tauto|exact F].
Qed.
Lemma question_exact c q bs : question_layout_ok q -> bs = question_to_bytes c q <-> fields_octets (question_fields c q) bs.
Proof.
  intros T. pose proof (question_layout c q T) as F. split; [intros ->; exact F|]. intros G. apply (proj2 octets_unique _ _ G _ (question_definite c q) F).
Qed.
Lemma record_exact c r bs : rdata_typed c (rr_data r) -> size_exact (rr_data r) -> record_layout_ok c r ->
  rr_to_bytes c r = Ok bs <-> fields_octets (record_fields c r) bs.
Proof.
  intros T S L. destruct (record_layout c r T S L) as (b & E & F). rewrite E. split; [intros H; injection H as <-; exact F|].
  intros G. f_equal. apply (proj2 octets_unique _ _ F _ (record_definite c r) G).
Qed.
Lemma message_exact c p bs : header_typed (p_header p) -> small_sections p -> Forall question_layout_ok (p_questions p) ->
  Forall (fun r => rdata_typed c (rr_data r) /\ size_exact (rr_data r) /\ record_layout_ok c r) (records_of p) ->
  packet_to_bytes c p = Ok bs <-> fields_octets (message_fields c p) bs.
Proof.
  intros H S Q R. destruct (message_layout c p H S Q R) as (b & E & F). rewrite E. split; [intros K; injection K as <-; exact F|].
  intros G. f_equal. apply (proj2 octets_unique _ _ F _ (message_definite c p) G).
Qed.
