(** * Parsing SVCB parameters from arbitrary octets: how much is consumed, what is kept. *)
From Verif Require Import Base Utf8 Buffer Fqdn Types RDataBasic Svcb RDataSec RData BaseFacts BufferFacts NameSpec FqdnFacts CodeSpec CodeFacts RDataSpec
  RDataReads SvcbFacts RDataFacts ParseFacts WireSpec WireFacts.
From Coq Require Import Lia ZifyBool ZifyNat ZifyN.
Ltac Zify.zify_post_hook ::= Z.div_mod_to_equations.

(** Fewer octets than Rust can allocate. *)
Definition allocatable (d : bytes) : Prop := N.of_nat (length d) <= 9223372036854775807.

Lemma set_insert_length {A} (key : A -> N) x s : (length (set_insert key x s) <= S (length s))%nat.
Proof.
  induction s as [|y s IH]; cbn [set_insert length]; [lia|].
  destruct (key x <? key y); [cbn [length]; lia|]. destruct (key x =? key y); cbn [length]; lia.
Qed.

Lemma u16_as_ok {A} (f : N -> res A) d q v b : extract_u16_as f (mkbuf d q) = (Ok v, b) ->
  b = mkbuf d (q + 2) /\ (q + 2 <= length d)%nat /\ f (unbe (slice d q 2)) = Ok v.
Proof.
  unfold extract_u16_as, extract_u16. intros E. apply bind_ok in E. destruct E as (n & b1 & E1 & E).
  apply bind_ok in E1. destruct E1 as (bs & b2 & E1 & E2). apply extract_bytes_ok in E1. cbn [data pos] in E1.
  destruct E1 as (L & -> & ->). cbn [ret] in E2. injection E2 as <- <-.
  unfold lift in E. injection E as E <-. split; [reflexivity|]. split; [exact L|exact E].
Qed.
Lemma u16_ok d q v b : extract_u16 (mkbuf d q) = (Ok v, b) ->
  b = mkbuf d (q + 2) /\ (q + 2 <= length d)%nat /\ v = unbe (slice d q 2).
Proof.
  unfold extract_u16. intros E1.
  apply bind_ok in E1. destruct E1 as (bs & b2 & E1 & E2). apply extract_bytes_ok in E1. cbn [data pos] in E1.
  destruct E1 as (L & -> & ->). cbn [ret] in E2. injection E2 as <- <-. repeat split. exact L.
Qed.
Lemma u8_ok d q v b : extract_u8 (mkbuf d q) = (Ok v, b) ->
  b = mkbuf d (q + 1) /\ (q + 1 <= length d)%nat /\ v = unbe (slice d q 1).
Proof.
  unfold extract_u8. intros E1.
  apply bind_ok in E1. destruct E1 as (bs & b2 & E1 & E2). apply extract_bytes_ok in E1. cbn [data pos] in E1.
  destruct E1 as (L & -> & ->). cbn [ret] in E2. injection E2 as <- <-. repeat split. exact L.
Qed.
Lemma lift_ok {A} (r : res A) b v b' : lift r b = (Ok v, b') -> r = Ok v /\ b' = b.
Proof. unfold lift. intros E. injection E as -> ->. split; reflexivity. Qed.

Lemma usub_cases c a b l : usub c M64 a b = Ok l -> a < M64 -> b <= M64 ->
  (b <= a /\ l = a - b) \/ (a < b /\ l = a + M64 - b).
Proof.
  unfold usub. intros E La Lb. destruct (N.leb_spec b a).
  - left. apply Ok_inj in E. lia.
  - right. destruct (ovf c); [discriminate|]. apply Ok_inj in E. split; [lia|]. subst l. apply N.mod_small. lia.
Qed.

Lemma mandatory_exact c : forall fuel len acc d q v b, allocatable d -> (q <= length d)%nat -> len < M64 ->
  mandatory_loop c fuel len acc (mkbuf d q) = (Ok v, b) ->
  N.of_nat q + len <= N.of_nat (length d) /\ b = mkbuf d (q + N.to_nat len) /\
  2 * N.of_nat (length v) <= 2 * N.of_nat (length acc) + len.
Proof.
  induction fuel as [|f IH]; intros len acc d q v b A L M E; cbn [mandatory_loop] in E;
    destruct (N.eqb_spec len 0) as [->|Z]; try discriminate.
  - injection E as <- <-. split; [lia|]. split; [f_equal; lia|lia].
  - injection E as <- <-. split; [lia|]. split; [f_equal; lia|lia].
  - apply bind_ok in E. destruct E as (k & b1 & E1 & E). apply u16_as_ok in E1. destruct E1 as (-> & L2 & _).
    apply bind_ok in E. destruct E as (l & b1 & E1 & E). apply lift_ok in E1. destruct E1 as [U ->].
    apply usub_cases in U; [|exact M|unfold M64; lia].
    assert (Ml : l < M64) by (unfold M64 in *; lia).
    specialize (IH l _ d _ v b A L2 Ml E). destruct IH as (I1 & -> & I3).
    pose proof (set_insert_length pkey_code k acc) as SL. unfold allocatable in A.
    destruct U as [[U ->]|[U ->]]; [|unfold M64 in *; lia].
    split; [lia|]. split; [f_equal; lia|lia].
Qed.

Definition alpn_total (l : list bytes) : N := N.of_nat (length (flat_map char_string l)).
Lemma alpn_total_app l s : alpn_total (l ++ [s]) = alpn_total l + N.of_nat (length s) + 1.
Proof.
  unfold alpn_total. rewrite flat_map_app, app_length. cbn [flat_map app]. rewrite app_nil_r.
  unfold char_string. cbn [length]. lia.
Qed.
Lemma alpn_exact c : forall fuel len acc d q v b, byte_list d -> allocatable d -> (q <= length d)%nat -> len < M64 ->
  alpn_loop c fuel len acc (mkbuf d q) = (Ok v, b) ->
  N.of_nat q + len <= N.of_nat (length d) /\ b = mkbuf d (q + N.to_nat len) /\
  alpn_total v = alpn_total acc + len.
Proof.
  induction fuel as [|f IH]; intros len acc d q v b B A L M E; cbn [alpn_loop] in E;
    destruct (N.eqb_spec len 0) as [->|Z]; try discriminate.
  - injection E as <- <-. split; [lia|]. split; [f_equal; lia|lia].
  - injection E as <- <-. split; [lia|]. split; [f_equal; lia|lia].
  - apply bind_ok in E. destruct E as (n & b1 & E1 & E). apply u8_ok in E1. destruct E1 as (-> & L2 & En).
    assert (N8 : n < 256).
    { subst n. apply (unbe_lt _ 1); [apply slice_length; lia|apply Forall_slice; exact B|reflexivity]. }
    apply bind_ok in E. destruct E as (s & b1 & E1 & E). apply extract_bytes_ok in E1. cbn [data pos] in E1.
    destruct E1 as (L3 & Es & ->).
    apply bind_ok in E. destruct E as (l & b1 & E1 & E). apply lift_ok in E1. destruct E1 as [U ->].
    apply usub_cases in U; [|exact M|unfold M64; lia].
    assert (Ml : l < M64) by (unfold M64 in *; lia).
    specialize (IH l _ d _ v b B A L3 Ml E). destruct IH as (I1 & -> & I3).
    rewrite alpn_total_app in I3.
    assert (LS : length s = N.to_nat n) by (subst s; apply slice_length; exact L3).
    unfold allocatable in A. destruct U as [[U ->]|[U ->]]; [|unfold M64 in *; lia].
    split; [lia|]. split; [f_equal; lia|lia].
Qed.

(** How much of the value is consumed, given the announced length. *)
Definition value_consumed (p : param) (len : N) : N :=
  match p with
  | PMandatory _ | PAlpn _ | PEch _ | PPrivate _ _ => len
  | PNoDefaultAlpn | PInvalid => 0
  | PPort _ => 2
  | PIpV4Hint _ => 4
  | PIpV6Hint _ => 16
  end.

Lemma param_exact c d q p b : byte_list d -> allocatable d -> (q <= length d)%nat ->
  param_try_from c (mkbuf d q) = (Ok p, b) ->
  exists len, (q + 4 <= length d)%nat /\ u16_at d (q + 2) len /\
    b = mkbuf d (q + 4 + N.to_nat (value_consumed p len)) /\ (q + 4 + N.to_nat (value_consumed p len) <= length d)%nat /\
    pkey_try_from (unbe (slice d q 2)) = Ok (param_key p) /\
    N.of_nat (length (param_value_bytes p)) <= value_consumed p len.
Proof.
  intros B A L E. unfold param_try_from in E.
  apply bind_ok in E. destruct E as (k & b1 & E1 & E). apply u16_as_ok in E1. destruct E1 as (-> & L2 & K).
  apply bind_ok in E. destruct E as (len & b1 & E1 & E).
  pose proof (u16_got d (q + 2) len b1 B E1) as U. destruct U as (U & _).
  apply u16_ok in E1. destruct E1 as (-> & L4 & El).
  assert (N16 : len < 65536).
  { subst len. apply (unbe_lt _ 2); [apply slice_length; lia|apply Forall_slice; exact B|reflexivity]. }
  exists len. split; [lia|]. split; [exact U|].
  replace (q + 2 + 2)%nat with (q + 4)%nat in * by lia.
  assert (KL : forall ks, length (flat_map (fun k => be 2 (pkey_code k)) ks) = (2 * length ks)%nat).
  { induction ks as [|x ks IH]; [reflexivity|]. cbn [flat_map length]. rewrite app_length, be_length, IH. lia. }
  destruct k.
  - apply bind_ok in E. destruct E as (ks & b1 & E1 & E). apply mandatory_exact in E1; [|assumption|lia|unfold M64; lia].
    destruct E1 as (I1 & -> & I3). cbn [ret] in E. injection E as <- <-. cbn [value_consumed param_key param_value_bytes].
    rewrite KL. cbn [length] in I3. split; [reflexivity|]. split; [lia|]. split; [exact K|lia].
  - apply bind_ok in E. destruct E as (ks & b1 & E1 & E). apply alpn_exact in E1; [|assumption|assumption|lia|unfold M64; lia].
    destruct E1 as (I1 & -> & I3). cbn [ret] in E. injection E as <- <-. cbn [value_consumed param_key param_value_bytes].
    split; [reflexivity|]. split; [lia|]. split; [exact K|]. change (alpn_total ks <= len). rewrite I3. apply N.le_refl.
  - cbn [ret] in E. injection E as <- <-. cbn [value_consumed param_key param_value_bytes length].
    split; [f_equal; lia|]. split; [lia|]. split; [exact K|lia].
  - apply bind_ok in E. destruct E as (n & b1 & E1 & E). apply u16_ok in E1. destruct E1 as (-> & I1 & _).
    cbn [ret] in E. injection E as <- <-. cbn [value_consumed param_key param_value_bytes]. rewrite be_length.
    split; [reflexivity|]. split; [lia|]. split; [exact K|lia].
  - apply bind_ok in E. destruct E as (n & b1 & E1 & E). unfold extract_u32 in E1. apply bind_ok in E1.
    destruct E1 as (x & b2 & E1 & E2). apply extract_bytes_ok in E1. cbn [data pos] in E1. destruct E1 as (I1 & -> & ->).
    cbn [ret] in E2. injection E2 as <- <-.
    cbn [ret] in E. injection E as <- <-. cbn [value_consumed param_key param_value_bytes]. rewrite be_length.
    split; [reflexivity|]. split; [lia|]. split; [exact K|lia].
  - apply bind_ok in E. destruct E as (x & b1 & E1 & E). apply extract_bytes_ok in E1. cbn [data pos] in E1.
    destruct E1 as (I1 & -> & ->). cbn [ret] in E. injection E as <- <-. cbn [value_consumed param_key param_value_bytes].
    rewrite slice_length by exact I1. split; [reflexivity|]. split; [lia|]. split; [exact K|lia].
  - apply bind_ok in E. destruct E as (x & b1 & E1 & E). apply extract_bytes_ok in E1. cbn [data pos] in E1.
    destruct E1 as (I1 & -> & ->). cbn [ret] in E. injection E as <- <-. cbn [value_consumed param_key param_value_bytes].
    rewrite be_length. split; [reflexivity|]. split; [lia|]. split; [exact K|lia].
  - apply bind_ok in E. destruct E as (x & b1 & E1 & E). apply extract_bytes_ok in E1. cbn [data pos] in E1.
    destruct E1 as (I1 & -> & ->). cbn [ret] in E. injection E as <- <-. cbn [value_consumed param_key param_value_bytes].
    rewrite slice_length by exact I1. split; [reflexivity|]. split; [lia|]. split; [exact K|lia].
  - cbn [ret] in E. injection E as <- <-. cbn [value_consumed param_key param_value_bytes length].
    split; [f_equal; lia|]. split; [lia|]. split; [exact K|lia].
Qed.

(** One step of the loop over the parameters. *)
Lemma param_step_ok c acc d q v b : byte_list d -> (q <= length d)%nat -> param_step c acc (mkbuf d q) = (Ok v, b) ->
  exists p q', param_try_from c (mkbuf d q) = (Ok p, mkbuf d q') /\ v = set_insert param_code p acc /\ b = mkbuf d q' /\
    (q + 4 <= q' <= length d)%nat.
Proof.
  intros B L E. unfold param_step, sub_buffer, remaining in E. cbn [data pos] in E.
  destruct (Nat.ltb_spec (length d) (q + (length d - q))); [lia|].
  replace (q + (length d - q))%nat with (length d) in E by lia. rewrite firstn_all in E.
  pose proof (ok_param c d q B L) as R. destruct (param_try_from c (mkbuf d q)) as [[p|e| |] [d' q']] eqn:EP; try discriminate.
  cbn [data pos] in R, E. destruct R as (-> & P & _). unfold bind, set_position in E. cbn [data pos] in E.
  destruct (Nat.ltb_spec (length d) q'); [lia|]. cbn [ret] in E. injection E as <- <-.
  exists p, q'. repeat split; try reflexivity; lia.
Qed.

(** The parameters in the order in which they stand in the message. *)
Lemma params_loop_ok c : forall fuel acc d q v b, byte_list d -> (q <= length d)%nat ->
  while_remaining fuel (param_step c) acc (mkbuf d q) = (Ok v, b) ->
  exists ps, consecutive (fun p x e => param_try_from c (mkbuf d p) = (Ok x, mkbuf d e)) q ps (length d) /\
    v = fold_left (fun acc p => set_insert param_code p acc) ps acc /\ b = mkbuf d (length d).
Proof.
  induction fuel as [|f IH]; intros acc d q v b B L E; cbn [while_remaining] in E; unfold remaining in E; cbn [data pos] in E;
    destruct (Nat.eqb_spec (length d - q) 0) as [Z|Z]; try discriminate.
  - injection E as <- <-. assert (q = length d) as -> by lia. exists []. split; [constructor|split; reflexivity].
  - injection E as <- <-. assert (q = length d) as -> by lia. exists []. split; [constructor|split; reflexivity].
  - apply bind_ok in E. destruct E as (a & b1 & E1 & E). apply param_step_ok in E1; [|assumption..].
    destruct E1 as (p & q' & EP & -> & -> & I). destruct (IH _ d q' v b B ltac:(lia) E) as (ps & C & -> & ->).
    exists (p :: ps). split; [|split; reflexivity]. econstructor; [exact EP|lia|exact C].
Qed.

Lemma fqdn_end d q f b : byte_list d -> (q <= length d)%nat -> extract_fqdn (mkbuf d q) = (Ok f, b) ->
  data b = d /\ (q + 1 <= pos b <= length d)%nat.
Proof.
  intros B L E. pose proof (ok_fqdn (mkcfg true true false) d q B L) as R. rewrite E in R. tauto.
Qed.

Lemma svcb_loop c d q x b : byte_list d -> (q <= length d)%nat -> svcb_try_from c (mkbuf d q) = (Ok x, b) ->
  exists k ps, name_at d 191 (q + 2) (sv_target x) k /\ (q + 3 <= k)%nat /\ u16_at d q (sv_prio x) /\
    consecutive (fun p x e => param_try_from c (mkbuf d p) = (Ok x, mkbuf d e)) k ps (length d) /\
    sv_params x = fold_left (fun acc p => set_insert param_code p acc) ps [] /\ b = mkbuf d (length d).
Proof.
  intros B L E. unfold svcb_try_from in E.
  apply bind_ok in E. destruct E as (pr & b1 & E1 & E).
  pose proof (u16_got d q pr b1 B E1) as [U _]. apply u16_ok in E1. destruct E1 as (-> & L2 & _).
  apply bind_ok in E. destruct E as (f & b1 & E1 & E).
  pose proof (fqdn_end _ _ _ _ B L2 E1) as [D P]. destruct b1 as [d1 k]. cbn [data pos] in D, P. subst d1.
  pose proof (name_got d (q + 2) f (mkbuf d k) B L2 E1) as NG.
  apply bind_ok in E. destruct E as (ps & b1 & E2 & E). unfold loop_remaining in E2.
  apply params_loop_ok in E2; [|exact B|lia]. destruct E2 as (qs & C & -> & ->). cbn [ret] in E. injection E as <- <-.
  exists k, qs. cbn [sv_target sv_prio sv_params].
  split; [|repeat split; try assumption; lia].
  destruct NG as (e & N & Eb). injection Eb as ->. exact N.
Qed.

Lemma insert_all_Forall {Q : param -> Prop} ps acc : Forall Q ps -> Forall Q acc ->
  Forall Q (fold_left (fun acc p => set_insert param_code p acc) ps acc).
Proof. intros H. revert acc. induction H as [|p ps Hp H IH]; intros acc A; cbn [fold_left]; [exact A|]. apply IH, set_insert_Forall; assumption. Qed.

(** A parsed parameter is one that can be written. *)
Lemma parsed_param_fits c d p x e : byte_list d -> (N.of_nat (length d) <= N.of_nat p + 65535) -> (p <= length d)%nat -> allocatable d ->
  param_try_from c (mkbuf d p) = (Ok x, mkbuf d e) -> param_fits x.
Proof.
  intros B W L A E. pose proof (ok_param c d p B L) as R. rewrite E in R. destruct R as (_ & _ & (_ & K & V)).
  destruct (param_exact c d p x _ B A L E) as (len & L4 & U & Eb & Le & _ & S).
  assert (S' : N.of_nat (length (param_value_bytes x)) <= 65531) by lia.
  destruct x; cbn [param_fits param_value_bytes param_key] in *; try exact I.
  - split; [exact V|].
    assert (KL : length (flat_map (fun k => be 2 (pkey_code k)) keys) = (2 * length keys)%nat).
    { clear. induction keys as [|k ks IH]; [reflexivity|]. cbn [flat_map length]. rewrite app_length, be_length, IH. lia. }
    lia.
  - split; [exact V|exact S'].
  - exact S'.
  - split; [exact K|exact S'].
Qed.

Lemma consecutive_start {X} (entry : nat -> X -> nat -> Prop) p xs e : consecutive entry p xs e -> (p <= e)%nat.
Proof. induction 1; lia. Qed.
Lemma consecutive_Forall {X} (entry : nat -> X -> nat -> Prop) (Q : X -> Prop) p xs e k : consecutive entry p xs e -> (k <= p)%nat ->
  (forall p x m, (k <= p)%nat -> (m <= e)%nat -> (p < m)%nat -> entry p x m -> Q x) -> Forall Q xs.
Proof.
  induction 1 as [|p x m xs e H L C IH]; intros K HQ; constructor.
  - apply (HQ p x m K); [apply (consecutive_start _ _ _ _ C)|exact L|exact H].
  - apply IH; [lia|exact HQ].
Qed.

Lemma svcb_parsed_fits c d q x b : byte_list d -> allocatable d -> (q <= length d)%nat -> N.of_nat (length d) <= N.of_nat q + 65535 ->
  svcb_try_from c (mkbuf d q) = (Ok x, b) -> Forall param_fits (sv_params x).
Proof.
  intros B A L W E. destruct (svcb_loop c d q x b B L E) as (k & ps & _ & K & _ & C & -> & _).
  apply insert_all_Forall; [|constructor].
  eapply (consecutive_Forall _ _ _ _ _ k C (le_n _)). intros p y m Kp Lm Lp E'.
  apply (parsed_param_fits c d p y m B); [lia|lia|exact A|exact E'].
Qed.
