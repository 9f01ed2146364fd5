(** * Facts about the numberings. *)
From Verif Require Import Base Buffer BaseFacts BufferFacts Types Header HeaderFacts RDataBasic Bitmap BitmapFacts Svcb RDataSec CodeSpec.
From Coq Require Import Lia ZifyBool ZifyNat ZifyN.
Ltac Zify.zify_post_hook ::= Z.div_mod_to_equations.

Lemma assoc_none {X} n (t : list (N * X)) : assoc n t = None <-> ~ In n (map fst t).
Proof.
  induction t as [|[k a] t IH]; cbn [assoc map In fst]; [tauto|].
  destruct (N.eqb_spec n k); [split; [discriminate|intros H; exfalso; apply H; left; congruence]|].
  rewrite IH. split; intros H; [intros [E|E]; [congruence|tauto]|tauto].
Qed.

Lemma faithful_table {X} (dom : X -> Prop) bound (code : X -> N) tab error :
  (forall x, dom x -> code x < bound /\ assoc (code x) tab = Some x) ->
  Forall (fun p => dom (snd p) /\ code (snd p) = fst p) tab ->
  faithful dom bound code (fun n => ok_or (assoc n tab) (error n)) error.
Proof.
  intros R T. rewrite Forall_forall in T.
  split; [|split; [|split]].
  - intros x D. destruct (R x D) as [B E]. rewrite E. split; [exact B|reflexivity].
  - intros n x E. destruct (assoc n tab) as [y|] eqn:E'; [|discriminate].
    cbn [ok_or] in E. injection E as ->. apply assoc_in in E'. exact (T _ E').
  - intros n N. destruct (assoc n tab) as [y|] eqn:E'; [|reflexivity].
    apply assoc_in in E'. destruct (T _ E') as [D E]. destruct (N y D E).
  - intros x y Dx Dy E. destruct (R x Dx) as [_ E1]. destruct (R y Dy) as [_ E2].
    rewrite E in E1. congruence.
Qed.

Lemma faithful_ext {X} (dom : X -> Prop) bound code (dec dec' : N -> res X) error :
  (forall n, dec' n = dec n) -> faithful dom bound code dec error -> faithful dom bound code dec' error.
Proof.
  intros E (a & b & c & d). split; [|split; [|split]].
  - intros x D. rewrite E. exact (a x D).
  - intros n x. rewrite E. apply b.
  - intros n N. rewrite E. exact (c n N).
  - exact d.
Qed.

Ltac enum :=
  apply faithful_table;
  [intros x _; destruct x; (split; reflexivity)
  |repeat (constructor; [split; [exact I|reflexivity]|]); constructor].

Lemma alg_faithful : faithful any 256 alg_code alg_try_from InvalidSSHFPAlgorithm.
Proof. enum. Qed.
Lemma idtype_faithful : faithful any 65536 idtype_code idtype_try_from InvalidIdentifierTypeError.
Proof. enum. Qed.
Lemma nflag_faithful : faithful any 256 nflag_code nflag_try_from InvalidNaptrFlag.
Proof. enum. Qed.
Lemma fptype_faithful : faithful any 256 fptype_code fptype_try_from InvalidSSHFPFingerprintType.
Proof. enum. Qed.
Lemma cert_usage_faithful : faithful any 256 cert_usage_code cert_usage_try_from InvalidTLSACertUsage.
Proof. enum. Qed.
Lemma selector_faithful : faithful any 256 selector_code selector_try_from InvalidSSHFPAlgorithm.
Proof. enum. Qed.
Lemma matching_faithful : faithful any 256 matching_code matching_try_from InvalidSSHFPAlgorithm.
Proof. enum. Qed.
Lemma tserr_faithful : faithful any 65536 tserr_code tserr_try_from InvalidTkeyError.
Proof. enum. Qed.
Lemma salg_faithful : faithful any 256 salg_code salg_try_from InvalidDnsSecAlgorithm.
Proof. enum. Qed.
Lemma digest_type_faithful : faithful any 256 digest_type_code digest_type_try_from InvalidDigestType.
Proof. enum. Qed.
Lemma rcode_faithful : faithful any 16 response_code_code response_code_try_from InvalidResponseCode.
Proof. enum. Qed.

(** Enumerations with a numeric payload. *)

Ltac assoc_cases H :=
  match type of H with
  | context [assoc ?n ((?k, ?a) :: ?t)] =>
    cbn [assoc] in H; destruct (N.eqb_spec n k); [|assoc_cases H]
  | _ => idtac
  end.

Lemma tkmode_faithful : faithful tkmode_documented 65536 tkmode_code tkmode_try_from InvalidTkeyMode.
Proof.
  assert (R : forall m, tkmode_documented m -> tkmode_try_from (tkmode_code m) = Ok m).
  { intros m D. destruct m; try reflexivity. cbn [tkmode_documented] in D. unfold tkmode_try_from.
    cbn [tkmode_code].
    destruct (assoc n _) as [y|] eqn:E.
    - apply assoc_in in E. cbn [In] in E. repeat (destruct E as [E|E]; [injection E; lia|]). destruct E.
    - replace ((6 <=? n) && (n <=? 65534)) with true by lia. reflexivity. }
  split; [|split; [|split]].
  - intros m D. split; [destruct m; cbn [tkmode_code tkmode_documented] in *; lia|exact (R m D)].
  - intros n m E. unfold tkmode_try_from in E.
    destruct (assoc n _) as [y|] eqn:E'.
    + injection E as ->. apply assoc_in in E'. cbn [In] in E'.
      repeat (destruct E' as [E'|E']; [injection E' as <- <-; split; [exact I|reflexivity]|]). destruct E'.
    + destruct ((6 <=? n) && (n <=? 65534)) eqn:B; [|discriminate]. injection E as <-.
      split; [cbn [tkmode_documented]; lia|reflexivity].
  - intros n N. unfold tkmode_try_from. destruct (assoc n _) as [y|] eqn:E'.
    + apply assoc_in in E'. cbn [In] in E'. exfalso. apply (N y).
      * repeat (destruct E' as [E'|E']; [injection E' as <- <-; exact I|]). destruct E'.
      * repeat (destruct E' as [E'|E']; [injection E' as <- <-; reflexivity|]). destruct E'.
    + destruct ((6 <=? n) && (n <=? 65534)) eqn:B; [|reflexivity].
      exfalso. apply (N (TmAvailable n)); [cbn [tkmode_documented]; lia|reflexivity].
  - intros x y Dx Dy E. pose proof (R x Dx) as Rx. rewrite E, (R y Dy) in Rx. congruence.
Qed.

Lemma tkerr_faithful : faithful tkerr_documented 65536 tkerr_code tkerr_try_from InvalidTkeyError.
Proof.
  assert (R : forall m, tkerr_documented m -> tkerr_try_from (tkerr_code m) = Ok m).
  { intros m D. destruct m; try reflexivity. cbn [tkerr_documented] in D. unfold tkerr_try_from.
    cbn [tkerr_code]. destruct (N.eqb_spec n 0); [lia|].
    replace ((1 <=? n) && (n <=? 15)) with true by lia. reflexivity. }
  split; [|split; [|split]].
  - intros m D. split; [destruct m; cbn [tkerr_code tkerr_documented] in *; lia|exact (R m D)].
  - intros n m E. unfold tkerr_try_from in E.
    destruct (N.eqb_spec n 0); [injection E as <-; split; [exact I|cbn; lia]|].
    destruct ((1 <=? n) && (n <=? 15)) eqn:B.
    + injection E as <-. split; [cbn [tkerr_documented]; lia|reflexivity].
    + destruct (assoc n _) as [y|] eqn:E'; [|discriminate].
      injection E as ->. apply assoc_in in E'. cbn [In] in E'.
      repeat (destruct E' as [E'|E']; [injection E' as <- <-; split; [exact I|reflexivity]|]). destruct E'.
  - intros n N. unfold tkerr_try_from.
    destruct (N.eqb_spec n 0); [exfalso; apply (N TeNone); [exact I|cbn; lia]|].
    destruct ((1 <=? n) && (n <=? 15)) eqn:B.
    + exfalso. apply (N (TeRcode n)); [cbn [tkerr_documented]; lia|reflexivity].
    + destruct (assoc n _) as [y|] eqn:E'; [|reflexivity].
      apply assoc_in in E'. cbn [In] in E'. exfalso. apply (N y).
      * repeat (destruct E' as [E'|E']; [injection E' as <- <-; exact I|]). destruct E'.
      * repeat (destruct E' as [E'|E']; [injection E' as <- <-; reflexivity|]). destruct E'.
  - intros x y Dx Dy E. pose proof (R x Dx) as Rx. rewrite E, (R y Dy) in Rx. congruence.
Qed.

Lemma pkey_faithful : faithful pkey_documented 65536 pkey_code pkey_try_from InvalidSvcbParam.
Proof.
  assert (R : forall m, pkey_documented m -> pkey_try_from (pkey_code m) = Ok m).
  { intros m D. destruct m; try reflexivity. cbn [pkey_documented] in D. unfold pkey_try_from.
    cbn [pkey_code].
    destruct (assoc n _) as [y|] eqn:E.
    - apply assoc_in in E. cbn [In] in E. repeat (destruct E as [E|E]; [injection E; lia|]). destruct E.
    - replace ((65280 <=? n) && (n <=? 65534)) with true by lia. reflexivity. }
  split; [|split; [|split]].
  - intros m D. split; [destruct m; cbn [pkey_code pkey_documented] in *; lia|exact (R m D)].
  - intros n m E. unfold pkey_try_from in E.
    destruct (assoc n _) as [y|] eqn:E'.
    + injection E as ->. apply assoc_in in E'. cbn [In] in E'.
      repeat (destruct E' as [E'|E']; [injection E' as <- <-; split; [exact I|reflexivity]|]). destruct E'.
    + destruct ((65280 <=? n) && (n <=? 65534)) eqn:B.
      * injection E as <-. split; [cbn [pkey_documented]; lia|reflexivity].
      * destruct (N.eqb_spec n 65535); [|discriminate]. injection E as <-. split; [exact I|cbn; lia].
  - intros n N. unfold pkey_try_from. destruct (assoc n _) as [y|] eqn:E'.
    + apply assoc_in in E'. cbn [In] in E'. exfalso. apply (N y).
      * repeat (destruct E' as [E'|E']; [injection E' as <- <-; exact I|]). destruct E'.
      * repeat (destruct E' as [E'|E']; [injection E' as <- <-; reflexivity|]). destruct E'.
    + destruct ((65280 <=? n) && (n <=? 65534)) eqn:B.
      * exfalso. apply (N (KPrivate n)); [cbn [pkey_documented]; lia|reflexivity].
      * destruct (N.eqb_spec n 65535); [|reflexivity].
        exfalso. apply (N KInvalid); [exact I|cbn; lia].
  - intros x y Dx Dy E. pose proof (R x Dx) as Rx. rewrite E, (R y Dy) in Rx. congruence.
Qed.

(** CSYNC flags: a number below 4, i.e. two independent bits. *)
Lemma land_csync n : n < 65536 -> (N.land n 65532 =? 0) = (n <? 4).
Proof.
  intros H. replace 65532 with (N.shiftl (N.ones 14) 2) by reflexivity.
  assert (E : N.land n (N.shiftl (N.ones 14) 2) = N.shiftl (n / 4) 2).
  { apply N.bits_inj. intros i. rewrite N.land_spec.
    destruct (N.ltb_spec i 2).
    - rewrite !N.shiftl_spec_low by assumption. apply andb_false_r.
    - rewrite !N.shiftl_spec_high' by assumption.
      change 4 with (2 ^ 2). rewrite <- N.shiftr_div_pow2, N.shiftr_spec' by lia.
      replace (i - 2 + 2) with i by lia.
      destruct (N.ltb_spec (i - 2) 14).
      + rewrite N.ones_spec_low by assumption. apply andb_true_r.
      + rewrite N.ones_spec_high by assumption. rewrite andb_false_r. symmetry.
        destruct (N.eq_dec n 0) as [->|Z]; [apply N.bits_0|].
        apply N.bits_above_log2. apply N.log2_lt_pow2; [lia|].
        apply N.lt_le_trans with (2 ^ 16); [exact H|]. apply N.pow_le_mono_r; lia. }
  rewrite E, N.shiftl_mul_pow2. change (2 ^ 2) with 4. lia.
Qed.
Lemma csync_flags_spec n : n < 65536 ->
  csync_flags_try_from n = if n <? 4 then Ok n else Err (InvalidCsyncFlag n).
Proof. intros H. unfold csync_flags_try_from. rewrite land_csync by exact H. destruct (n <? 4); reflexivity. Qed.
Lemma csync_faithful :
  (forall n, n < 4 -> csync_flags_try_from n = Ok n) /\
  (forall n f, n < 65536 -> csync_flags_try_from n = Ok f -> f = n /\ f < 4) /\
  (forall n, n < 65536 -> 4 <= n -> csync_flags_try_from n = Err (InvalidCsyncFlag n)).
Proof.
  split; [|split].
  - intros n H. rewrite csync_flags_spec by lia. replace (n <? 4) with true by lia. reflexivity.
  - intros n f B E. rewrite csync_flags_spec in E by exact B. destruct (N.ltb_spec n 4); [|discriminate].
    injection E as <-. split; [reflexivity|assumption].
  - intros n B H. rewrite csync_flags_spec by lia. replace (n <? 4) with false by lia. reflexivity.
Qed.
(** The setters and getters on reachable flag values. *)
Lemma csync_view imm soa : csync_immediate (csync_of imm soa) = imm /\ csync_soa_minimum (csync_of imm soa) = soa /\
  (forall b, csync_set_immediate (csync_of imm soa) b = csync_of b soa) /\
  (forall b, csync_set_soa_minimum (csync_of imm soa) b = csync_of imm b).
Proof. destruct imm, soa; repeat split; intros b; destruct b; reflexivity. Qed.
Lemma csync_all n : n < 4 -> exists i s, n = csync_of i s.
Proof.
  intros H. assert (C : n = 0 \/ n = 1 \/ n = 2 \/ n = 3) by lia.
  destruct C as [->|[->|[->| ->]]];
    [exists false, false|exists true, false|exists false, true|exists true, true]; reflexivity.
Qed.

(** Types. *)

Lemma rtype_faithful c : faithful (decodable c) 65536 rtype_code (rtype_try_from c) InvalidType.
Proof.
  apply faithful_table.
  - intros t (E & n1 & n2). unfold rtype_exists in E. unfold rtype_table.
    destruct (dnssec c); destruct t; split; try reflexivity; try congruence; discriminate E.
  - unfold rtype_table, decodable, rtype_exists. destruct (dnssec c); cbn [app];
      repeat (constructor; [cbn [fst snd]; split; [split; [reflexivity|split; discriminate]|reflexivity]|]); constructor.
Qed.
Lemma qtype_faithful c : faithful (qdecodable c) 65536 qtype_code (qtype_try_from c) InvalidType.
Proof.
  apply faithful_table.
  - intros q D. destruct q as [t| | | |].
    + destruct D as (E & n1 & n2). unfold rtype_exists in E. unfold qtype_table, rtype_table.
      destruct (dnssec c); destruct t; split; try reflexivity; try congruence; discriminate E.
    + unfold qtype_table, rtype_table. destruct (dnssec c); split; reflexivity.
    + unfold qtype_table, rtype_table. destruct (dnssec c); split; reflexivity.
    + unfold qtype_table, rtype_table. destruct (dnssec c); split; reflexivity.
    + unfold qtype_table, rtype_table. destruct (dnssec c); split; reflexivity.
  - unfold qtype_table, rtype_table, qdecodable, decodable, rtype_exists. destruct (dnssec c); cbn [app map fst snd];
      repeat (constructor; [cbn [fst snd]; split; [first [exact I|split; [reflexivity|split; discriminate]]|reflexivity]|]); constructor.
Qed.
Lemma parseable_decodable c t : parseable c t <-> decodable c t.
Proof.
  destruct (rtype_faithful c) as (a & b & _). split.
  - intros H. apply b in H. apply H.
  - intros H. apply a. exact H.
Qed.
Lemma iana_types_code t : In (t, rtype_code t) iana_types.
Proof. destruct t; vm_compute; tauto. Qed.
Lemma iana_qtypes_code q : In (q, qtype_code q) iana_qtypes.
Proof.
  destruct q as [t| | | |]; try (vm_compute; tauto).
  apply in_or_app. left. apply in_map_iff. exists (t, rtype_code t). split; [reflexivity|apply iana_types_code].
Qed.

(** Classes. *)
Lemma land_15 n : N.land n 32767 = n mod 32768.
Proof. change 32767 with (N.ones 15). rewrite N.land_ones. reflexivity. Qed.
Lemma qclass_low n : qclass_try_from n = qclass_try_from (n mod 32768).
Proof. unfold qclass_try_from. rewrite !land_15, N.mod_mod by discriminate. reflexivity. Qed.
Lemma rclass_low n : rclass_from n = rclass_from (n mod 32768).
Proof. unfold rclass_from. rewrite !land_15, N.mod_mod by discriminate. reflexivity. Qed.
Lemma qclass_roundtrip q : qclass_try_from (qclass_code q) = Ok q.
Proof. destruct q; reflexivity. Qed.
Lemma qclass_back n q : qclass_try_from n = Ok q -> qclass_code q = n mod 32768.
Proof.
  unfold qclass_try_from. rewrite land_15. intros E. destruct (assoc _ _) as [y|] eqn:E'; [|discriminate].
  injection E as ->. apply assoc_in in E'. cbn [In] in E'.
  repeat (destruct E' as [E'|E']; [injection E' as e <-; rewrite <- e; reflexivity|]). destruct E'.
Qed.
Lemma qclass_reject n : (forall q, qclass_code q <> n mod 32768) -> qclass_try_from n = Err (InvalidClass (n mod 32768)).
Proof.
  intros H. destruct (qclass_try_from n) as [q|e| |] eqn:E.
  - apply qclass_back in E. destruct (H q E).
  - unfold qclass_try_from in E. rewrite land_15 in E. destruct (assoc _ _); [discriminate|]. injection E as <-. reflexivity.
  - unfold qclass_try_from in E. destruct (assoc _ _); discriminate.
  - unfold qclass_try_from in E. destruct (assoc _ _); discriminate.
Qed.
Lemma rclass_roundtrip k : rclass_from (rclass_code k) = k <-> rclass_plain k.
Proof.
  destruct k; try (split; [intros _; exact I|reflexivity]).
  cbn [rclass_code rclass_plain]. unfold rclass_from. rewrite land_15.
  destruct (assoc (n mod 32768) _) as [y|] eqn:E.
  - apply assoc_in in E. cbn [In] in E. split.
    + intros ->. repeat (destruct E as [E|E]; [discriminate E|]). destruct E.
    + intros [L N]. rewrite N.mod_small in E by exact L.
      repeat (destruct E as [E|E]; [injection E as e _; lia|]). destruct E.
  - assert (Z : ~ (1 <= n mod 32768 <= 4)).
    { intros B. apply assoc_none in E. apply E. cbn [map fst In]. lia. }
    split.
    + intros H. injection H as H. split; [lia|]. rewrite <- H. exact Z.
    + intros [L N]. rewrite N.mod_small by exact L. reflexivity.
Qed.
Lemma rclass_back n : rclass_code (rclass_from n) = n mod 32768.
Proof.
  unfold rclass_from. rewrite land_15. destruct (assoc _ _) as [y|] eqn:E; [|reflexivity].
  apply assoc_in in E. cbn [In] in E.
  repeat (destruct E as [E|E]; [injection E as e <-; rewrite <- e; reflexivity|]). destruct E.
Qed.
Lemma rclass_from_plain n : rclass_plain (rclass_from n).
Proof. apply rclass_roundtrip. rewrite rclass_back, <- rclass_low. reflexivity. Qed.
Lemma rclass_code_inj k k' : rclass_plain k -> rclass_plain k' -> rclass_code k = rclass_code k' -> k = k'.
Proof.
  intros P P' E. apply rclass_roundtrip in P, P'. rewrite E in P. congruence.
Qed.

(** Families and gateway types. *)
Lemma apl_family b x b' : apl_try_from b = (Ok x, b') ->
  unbe (slice (data b) (pos b) 2) = afd_family (apl_afd x).
Proof.
  unfold apl_try_from, extract_u16, bind at 1 2. 
  destruct (extract_bytes 2 b) as [[bs| | |] b1] eqn:E; try discriminate.
  apply extract_bytes_ok in E. destruct E as (_ & -> & ->). cbn [ret].
  generalize (unbe (slice (data b) (pos b) 2)). intros fam.
  unfold bind at 1. destruct (extract_u8 _) as [[pr| | |] b2]; try discriminate.
  unfold bind at 1. destruct (extract_u8 b2) as [[co| | |] b3]; try discriminate.
  unfold bind at 1. destruct (extract_bytes _ b3) as [[ab| | |] b4]; try discriminate.
  destruct fam as [|[[]|[]|]]; cbn; intros H; try discriminate; injection H as <- <-; reflexivity.
Qed.
