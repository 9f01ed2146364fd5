(** * Which messages make parsing panic or loop: proofs. *)
From Verif Require Import Base Utf8 Buffer Fqdn Header Types RDataBasic Bitmap Svcb RDataSec RData Packet BaseFacts BufferFacts
  NameSpec FqdnLoop WalkFacts FqdnFacts CodeSpec CodeFacts HeaderSpec HeaderFacts RDataSpec RecordSpec ParseFacts WireSpec WireFacts
  RDataReads SvcbFacts SvcbParse FailSpec.
From Coq Require Import Lia ZifyBool ZifyNat ZifyN.
Ltac Zify.zify_post_hook ::= Z.div_mod_to_equations.

(** ** Sequences *)
Lemma fails_bind {A B} f (p : P A) (g : A -> P B) b : fails f (fst (bind p g b)) <->
  fails f (fst (p b)) \/ exists a b', p b = (Ok a, b') /\ fails f (fst (g a b')).
Proof.
  unfold bind. destruct (p b) as [[a|e| |] b1]; cbn [fst]; split.
  - intros H. right. exists a, b1. split; [reflexivity|exact H].
  - intros [H|(a' & b' & E & H)]; [destruct f; discriminate|]. injection E as <- <-. exact H.
  - intros H. destruct f; discriminate.
  - intros [H|(a' & b' & E & H)]; [destruct f; discriminate|discriminate].
  - intros H. left. destruct f; [reflexivity|discriminate].
  - intros [H|(a' & b' & E & H)]; [destruct f; [reflexivity|discriminate]|discriminate].
  - intros H. left. destruct f; [discriminate|reflexivity].
  - intros [H|(a' & b' & E & H)]; [destruct f; [discriminate|reflexivity]|discriminate].
Qed.
Definition calm {A} (p : P A) : Prop := forall f b, ~ fails f (fst (p b)).
Lemma calm_bytes n : calm (extract_bytes n).
Proof. intros f b. unfold extract_bytes. destruct (_ <? _)%nat; destruct f; discriminate. Qed.
Lemma calm_ret {A} (a : A) : calm (ret a).
Proof. intros [] b; discriminate. Qed.
Lemma calm_fail {A} e : calm (@fail A e).
Proof. intros [] b; discriminate. Qed.
Lemma calm_bind {A B} (p : P A) (g : A -> P B) : calm p -> (forall a, calm (g a)) -> calm (bind p g).
Proof. intros Hp Hg f b H. apply fails_bind in H. destruct H as [H|(a & b' & _ & H)]; [apply (Hp _ _ H)|apply (Hg _ _ _ H)]. Qed.
Lemma calm_lift {A} (r : res A) : r <> Panic -> r <> Diverge -> calm (lift r).
Proof. intros H1 H2 [] b H; cbn in H; congruence. Qed.
Lemma calm_u8 : calm extract_u8. Proof. apply calm_bind; [apply calm_bytes|intros; apply calm_ret]. Qed.
Lemma calm_u16 : calm extract_u16. Proof. apply calm_bind; [apply calm_bytes|intros; apply calm_ret]. Qed.
Lemma calm_u32 : calm extract_u32. Proof. apply calm_bind; [apply calm_bytes|intros; apply calm_ret]. Qed.
Lemma calm_rest : calm extract_rest. Proof. intros f b. apply calm_bytes. Qed.
Lemma calm_dec {X} (dom : X -> Prop) b code dec e n : faithful dom b code dec e -> calm (lift (dec n)).
Proof. intros F. destruct (faithful_total dom b code dec e n F) as [[x T]|[x T]]; apply calm_lift; rewrite T; discriminate. Qed.
Lemma calm_u8_as {X} (dom : X -> Prop) b code dec e : faithful dom b code dec e -> calm (extract_u8_as dec).
Proof. intros F. apply calm_bind; [apply calm_u8|]. intros n. eapply calm_dec, F. Qed.
Lemma calm_u16_as {X} (dom : X -> Prop) b code dec e : faithful dom b code dec e -> calm (extract_u16_as dec).
Proof. intros F. apply calm_bind; [apply calm_u16|]. intros n. eapply calm_dec, F. Qed.
Lemma calm_csync : calm (extract_u16_as csync_flags_try_from).
Proof. apply calm_bind; [apply calm_u16|]. intros n. apply calm_lift; unfold csync_flags_try_from; destruct (negb _); discriminate. Qed.
Lemma calm_char_string : calm extract_character_string.
Proof. apply calm_bind; [apply calm_u8|]. intros n. apply calm_bytes. Qed.
Lemma calm_string : calm extract_string.
Proof. apply calm_bind; [apply calm_char_string|]. intros s. destruct (utf8_valid s); [apply calm_ret|apply calm_fail]. Qed.
Lemma calm_while {A} (step : A -> P A) : (forall a, calm (step a)) ->
  (forall a b v b', step a b = (Ok v, b') -> (pos b <= length (data b))%nat -> data b' = data b /\ (pos b < pos b' <= length (data b))%nat) ->
  forall fuel a b f, (pos b <= length (data b))%nat -> (remaining b <= fuel)%nat -> ~ fails f (fst (while_remaining fuel step a b)).
Proof.
  intros C S. induction fuel as [|n IH]; intros a b f I L; cbn [while_remaining]; destruct (Nat.eqb_spec (remaining b) 0) as [Z|Z];
    try (destruct f; discriminate); [lia|].
  intros H. apply fails_bind in H. destruct H as [H|(v & b' & E & H)]; [apply (C _ _ _ H)|].
  destruct (S _ _ _ _ E I) as [D P]. revert H. apply IH; [rewrite D; lia|]. unfold remaining in *. rewrite D. lia.
Qed.

Ltac calm_prim :=
  first [ apply calm_u8 | apply calm_u16 | apply calm_u32 | apply calm_rest | apply calm_char_string | apply calm_string
        | apply calm_bytes | apply calm_ret | apply calm_fail | apply calm_csync
        | eapply calm_u8_as; first [apply alg_faithful|apply fptype_faithful|apply cert_usage_faithful|apply selector_faithful
                                 |apply matching_faithful|apply salg_faithful|apply digest_type_faithful]
        | eapply calm_u16_as; first [apply idtype_faithful|apply tserr_faithful|apply tkmode_faithful|apply tkerr_faithful
                                 |apply rtype_faithful|apply qtype_faithful|apply pkey_faithful] ].
Ltac calm_all := repeat first [calm_prim | apply calm_bind; [calm_prim|intros ?] ].

Lemma fails_fqdn f d p : byte_list d -> fails f (fst (extract_fqdn (mkbuf d p))) <-> bad_name f d p.
Proof. intros B. destruct f; cbn [fails bad_name]; [apply fqdn_panic_iff|apply fqdn_diverge_iff]; exact B. Qed.

(** Peel one calm reader from a failing sequence. *)
Lemma peel {A B} f (p : P A) (g : A -> P B) b : calm p -> fails f (fst (bind p g b)) ->
  exists a b', p b = (Ok a, b') /\ fails f (fst (g a b')).
Proof. intros C H. apply fails_bind in H. destruct H as [H|H]; [destruct (C _ _ H)|exact H]. Qed.
Lemma peel_name {B} f (g : fqdn -> P B) d p : byte_list d -> (p <= length d)%nat -> fails f (fst (bind extract_fqdn g (mkbuf d p))) ->
  bad_name f d p \/ exists nm k, name_at d 191 p nm k /\ (p + 1 <= k <= length d)%nat /\ fails f (fst (g nm (mkbuf d k))).
Proof.
  intros B1 L H. apply fails_bind in H. destruct H as [H|(a & b' & E & H)].
  - left. apply fails_fqdn; assumption.
  - right. destruct (name_got d p a b' B1 L E) as (k & N & ->). exists a, k. split; [exact N|]. split; [apply (name_at_end _ _ _ _ N)|exact H].
Qed.
Lemma u8_got d q v b : byte_list d -> extract_u8 (mkbuf d q) = (Ok v, b) ->
  b = mkbuf d (q + 1) /\ nth_error d q = Some v /\ v < 256 /\ (q + 1 <= length d)%nat.
Proof.
  intros B E. apply u8_ok in E. destruct E as (-> & L & ->). split; [reflexivity|].
  destruct (nth_some d q ltac:(lia)) as [a Ea].
  assert (E1 : slice d q 1 = [a]).
  { pose proof Ea as Eb. apply nth_error_split in Eb. destruct Eb as (l1 & l2 & -> & <-). apply (slice_exact l1 [a] l2). }
  rewrite E1. split; [exact Ea|]. split; [apply (nth_byte _ _ _ B Ea)|exact L].
Qed.
Lemma bytes_got d q n v b : extract_bytes n (mkbuf d q) = (Ok v, b) ->
  b = mkbuf d (q + n) /\ v = slice d q n /\ length v = n /\ (q + n <= length d)%nat.
Proof.
  intros E. apply extract_bytes_ok in E. cbn [data pos] in E. destruct E as (L & -> & ->).
  repeat split; [apply slice_length; exact L|exact L].
Qed.
Lemma u32_got d q v b : extract_u32 (mkbuf d q) = (Ok v, b) -> b = mkbuf d (q + 4) /\ (q + 4 <= length d)%nat.
Proof.
  unfold extract_u32. intros E. apply bind_ok in E. destruct E as (x & b1 & E1 & E). apply bytes_got in E1.
  destruct E1 as (-> & _ & _ & L). cbn [ret] in E. injection E as <- <-. split; [reflexivity|exact L].
Qed.
Lemma u8_as_got {A} (dec : N -> res A) d q v b : byte_list d -> extract_u8_as dec (mkbuf d q) = (Ok v, b) ->
  b = mkbuf d (q + 1) /\ (q + 1 <= length d)%nat.
Proof.
  intros B E. apply bind_ok in E. destruct E as (n & b1 & E1 & E). apply u8_got in E1; [|exact B]. destruct E1 as (-> & _ & _ & L).
  unfold lift in E. injection E as _ <-. split; [reflexivity|exact L].
Qed.
Lemma char_string_got d q v b : byte_list d -> extract_character_string (mkbuf d q) = (Ok v, b) ->
  b = mkbuf d (q + 1 + length v) /\ octet_at d q (length v) /\ (q + 1 + length v <= length d)%nat /\ v = slice d (q + 1) (length v).
Proof.
  intros B E. apply bind_ok in E. destruct E as (n & b1 & E1 & E). apply u8_got in E1; [|exact B]. destruct E1 as (-> & E1 & L & _).
  apply bytes_got in E. destruct E as (-> & Ev & Ln & L2). rewrite Ln. split; [reflexivity|]. split; [|split; [exact L2|exact Ev]].
  unfold octet_at. rewrite N2Nat.id. exact E1.
Qed.
Lemma string_got d q v b : byte_list d -> extract_string (mkbuf d q) = (Ok v, b) ->
  b = mkbuf d (q + 1 + length v) /\ octet_at d q (length v) /\ (q + 1 + length v <= length d)%nat.
Proof.
  intros B E. apply bind_ok in E. destruct E as (n & b1 & E1 & E). apply char_string_got in E1; [|exact B].
  destruct (utf8_valid n); [|discriminate]. cbn [ret] in E. injection E as <- <-. tauto.
Qed.

(** ** Loops *)
Lemma while_fails {A X} f (entry : nat -> X -> nat -> Prop) (Bad : nat -> Prop) (step : A -> P A) d :
  (forall a q, (q <= length d)%nat -> fails f (fst (step a (mkbuf d q))) -> Bad q) ->
  (forall a q v b, (q <= length d)%nat -> step a (mkbuf d q) = (Ok v, b) ->
     exists x e, entry q x e /\ (q < e <= length d)%nat /\ b = mkbuf d e) ->
  forall fuel a q, (q <= length d)%nat -> (length d - q <= fuel)%nat -> fails f (fst (while_remaining fuel step a (mkbuf d q))) ->
  exists xs p, consecutive entry q xs p /\ (q <= p < length d)%nat /\ Bad p.
Proof.
  intros HB HS. induction fuel as [|n IH]; intros a q L F H; cbn [while_remaining] in H; unfold remaining in H; cbn [data pos] in H;
    destruct (Nat.eqb_spec (length d - q) 0) as [Z|Z]; try (destruct f; discriminate); [lia|].
  apply fails_bind in H. destruct H as [H|(v & b' & E & H)].
  - exists [], q. split; [constructor|]. split; [lia|]. apply (HB _ _ L H).
  - destruct (HS _ _ _ _ L E) as (x & e & E1 & Le & ->). destruct (IH v e ltac:(lia) ltac:(lia) H) as (xs & p & C & Lp & Hp).
    exists (x :: xs), p. split; [econstructor; [exact E1|lia|exact C]|]. split; [lia|exact Hp].
Qed.
Lemma loop_fails {A X} f (entry : nat -> X -> nat -> Prop) (Bad : nat -> Prop) (step : A -> P A) d :
  (forall a q, (q <= length d)%nat -> fails f (fst (step a (mkbuf d q))) -> Bad q) ->
  (forall a q v b, (q <= length d)%nat -> step a (mkbuf d q) = (Ok v, b) ->
     exists x e, entry q x e /\ (q < e <= length d)%nat /\ b = mkbuf d e) ->
  forall a q, (q <= length d)%nat -> fails f (fst (loop_remaining step a (mkbuf d q))) ->
  exists xs p, consecutive entry q xs p /\ (q <= p < length d)%nat /\ Bad p.
Proof. intros HB HS a q L H. apply (while_fails f entry Bad step d HB HS _ a q L (le_n _) H). Qed.

(** ** Type bitmaps *)
Lemma rfold_fails {A B} f (g : A -> B -> res A) l : forall a, fails f (rfold g l a) -> exists x a', In x l /\ fails f (g a' x).
Proof.
  induction l as [|x l IH]; intros a H; cbn [rfold] in H; [destruct f; discriminate|].
  destruct (g a x) as [a'|e| |] eqn:E; cbn [rbind] in H.
  - destruct (IH _ H) as (y & b & I & F). exists y, b. split; [right; exact I|exact F].
  - destruct f; discriminate.
  - exists x, a. split; [left; reflexivity|]. rewrite E. destruct f; [reflexivity|discriminate].
  - exists x, a. split; [left; reflexivity|]. rewrite E. destruct f; [discriminate|reflexivity].
Qed.
Lemma rbind_fails {A B} f (r : res A) (g : A -> res B) : fails f (rbind r g) -> fails f r \/ exists a, r = Ok a /\ fails f (g a).
Proof. destruct r; cbn [rbind]; intros H; try (destruct f; discriminate); eauto; left; destruct f; try discriminate; reflexivity. Qed.
Lemma arith_fails f c m a b : fails f (uadd c m a b) -> f = Panics /\ ovf c = true /\ m <= a + b.
Proof.
  unfold uadd. destruct (N.ltb_spec (a + b) m) as [L|L]; [destruct f; discriminate|].
  destruct (ovf c); [|destruct f; discriminate]. destruct f; [auto|discriminate].
Qed.
Lemma usub_fails f c m a b : fails f (usub c m a b) -> f = Panics /\ ovf c = true /\ a < b.
Proof.
  unfold usub. destruct (N.leb_spec b a) as [L|L]; [destruct f; discriminate|].
  destruct (ovf c); [|destruct f; discriminate]. destruct f; [auto|discriminate].
Qed.
Lemma octet_fails f c w i o acc : w < 256 -> i < 255 -> fails f (octet_types c w i o acc) ->
  f = Panics /\ ovf c = true /\ exists j, j < 8 /\ bit_is_set o j = true /\ 65536 <= 256 * w + 8 * i + j.
Proof.
  intros W I H. apply rfold_fails in H. destruct H as (j & a & IJ & H). destruct (bit_is_set o j) eqn:Bj; [|destruct f; discriminate].
  assert (J : j < 8) by (cbn [In] in IJ; lia). clear IJ.
  assert (E1 : umul c M16 256 w = Ok (256 * w)) by (unfold umul, M16; destruct (N.ltb_spec (256 * w) 65536); [reflexivity|lia]).
  assert (E2 : umul c M16 8 (u16 i) = Ok (8 * i)).
  { unfold umul, M16, u16. rewrite N.mod_small by lia. destruct (N.ltb_spec (8 * i) 65536); [reflexivity|lia]. }
  rewrite E1, E2 in H. cbn [rbind] in H. apply rbind_fails in H. destruct H as [H|(v & E & H)].
  { apply arith_fails in H. unfold M16 in H. destruct H as (H1 & H2 & H3). split; [exact H1|]. split; [exact H2|]. exists j. split; [exact J|]. split; [exact Bj|lia]. }
  apply rbind_fails in H. destruct H as [H|(p & E' & H)].
  - apply arith_fails in H. destruct H as (H1 & H2 & H3). split; [exact H1|]. split; [exact H2|]. exists j.
    split; [exact J|]. split; [exact Bj|]. unfold uadd, M16 in *. destruct (N.ltb_spec (256 * w + 8 * i) 65536).
    + apply Ok_inj in E. subst v. lia.
    + rewrite H2 in E. discriminate.
  - apply rbind_fails in H. exfalso. pose proof (faithful_total _ _ _ _ _ p (rtype_faithful c)) as T.
    destruct H as [H|(t & _ & H)]; [destruct T as [[x T]|[x T]]; rewrite T in H|]; destruct f; discriminate.
Qed.
Lemma bitmap_fails f c w bm : w < 256 -> forall i acc, i + N.of_nat (length bm) <= 255 -> fails f (bitmap_types c w i bm acc) ->
  f = Panics /\ ovf c = true /\ exists k o j, nth_error bm k = Some o /\ j < 8 /\ bit_is_set o j = true /\ 65536 <= 256 * w + 8 * (i + N.of_nat k) + j.
Proof.
  intros W. induction bm as [|o bm IH]; intros i acc L H; cbn [bitmap_types length] in *; [destruct f; discriminate|].
  apply rbind_fails in H. destruct H as [H|(a & _ & H)].
  - apply octet_fails in H; [|lia|lia]. destruct H as (H1 & H2 & j & J & Bj & H3). split; [exact H1|]. split; [exact H2|].
    exists 0%nat, o, j. split; [reflexivity|]. split; [exact J|]. split; [exact Bj|lia].
  - apply IH in H; [|lia]. destruct H as (H1 & H2 & k & o' & j & E & J & Bj & H3). split; [exact H1|]. split; [exact H2|].
    exists (S k), o', j. split; [exact E|]. split; [exact J|]. split; [exact Bj|lia].
Qed.
Lemma window_step_got c acc d q v b : byte_list d -> window_step c acc (mkbuf d q) = (Ok v, b) ->
  exists x e, window_at d q x e /\ (q < e <= length d)%nat /\ b = mkbuf d e.
Proof.
  intros B E. unfold window_step in E. apply bind_ok in E. destruct E as (w & b1 & E1 & E). apply u8_got in E1; [|exact B].
  destruct E1 as (-> & N1 & _ & L1). apply bind_ok in E. destruct E as (n & b1 & E1 & E). apply u8_got in E1; [|exact B].
  destruct E1 as (-> & N2 & _ & L2). apply bind_ok in E. destruct E as (bm & b1 & E1 & E). apply bytes_got in E1.
  destruct E1 as (-> & Es & Ln & L3). unfold lift in E. injection E as _ <-.
  replace (q + 1 + 1)%nat with (q + 2)%nat in * by lia.
  exists (w, bm), (q + 2 + N.to_nat n)%nat. unfold window_at. cbn [fst snd]. rewrite Ln, N2Nat.id.
  split; [|split; [lia|reflexivity]]. split; [exact N1|]. split; [exact N2|]. split; [exact L3|]. split; [symmetry; exact Es|reflexivity].
Qed.
Lemma window_step_fails f c acc d q : byte_list d -> fails f (fst (window_step c acc (mkbuf d q))) ->
  f = Panics /\ ovf c = true /\ exists x e k o j, window_at d q x e /\ nth_error (snd x) k = Some o /\ (j < 8)%nat /\
    N.testbit o (7 - N.of_nat j) = true /\ 65536 <= 256 * fst x + 8 * N.of_nat k + N.of_nat j.
Proof.
  intros B H. unfold window_step in H. apply peel in H; [|calm_prim]. destruct H as (w & b1 & E1 & H). apply u8_got in E1; [|exact B].
  destruct E1 as (-> & N1 & W & L1). apply peel in H; [|calm_prim]. destruct H as (n & b1 & E1 & H). apply u8_got in E1; [|exact B].
  destruct E1 as (-> & N2 & N8 & L2). apply peel in H; [|calm_prim]. destruct H as (bm & b1 & E1 & H). apply bytes_got in E1.
  destruct E1 as (-> & Es & Ln & L3). unfold lift in H. cbn [fst] in H.
  apply bitmap_fails in H; [|exact W|lia]. destruct H as (H1 & H2 & k & o & j & E & J & Bj & H3).
  split; [exact H1|]. split; [exact H2|]. replace (q + 1 + 1)%nat with (q + 2)%nat in * by lia.
  exists (w, bm), (q + 2 + N.to_nat n)%nat, k, o, (N.to_nat j). unfold window_at. cbn [fst snd]. rewrite Ln, N2Nat.id.
  split; [|split; [exact E|]].
  - split; [exact N1|]. split; [exact N2|]. split; [exact L3|]. split; [symmetry; exact Es|reflexivity].
  - split; [lia|]. rewrite BitmapFacts.bit_is_set_spec in Bj by exact J. rewrite N2Nat.id. split; [exact Bj|lia].
Qed.
Lemma types_fails f c d q : byte_list d -> (q <= length d)%nat -> fails f (fst (types_try_from c (mkbuf d q))) ->
  f = Panics /\ ovf c = true /\ bitmap_overflow d q.
Proof.
  intros B L H. unfold types_try_from in H.
  apply (loop_fails f (window_at d) (fun p => f = Panics /\ ovf c = true /\ exists x e k o j, window_at d p x e /\ nth_error (snd x) k = Some o /\ (j < 8)%nat /\
    N.testbit o (7 - N.of_nat j) = true /\ 65536 <= 256 * fst x + 8 * N.of_nat k + N.of_nat j)) in H; [| | |exact L].
  - destruct H as (xs & p & C & _ & H1 & H2 & x & e & k & o & j & H3). split; [exact H1|]. split; [exact H2|].
    exists xs, p, x, e, k, o, j. split; [exact C|exact H3].
  - intros a p _ F. apply (window_step_fails _ _ _ _ _ B F).
  - intros a p v b _ E. apply (window_step_got _ _ _ _ _ _ B E).
Qed.

(** ** SVCB parameters *)
Lemma mandatory_fails f c : forall fuel len acc d q, byte_list d -> (length d - q < fuel)%nat -> len < M64 ->
  fails f (fst (mandatory_loop c fuel len acc (mkbuf d q))) -> f = Panics /\ ovf c = true /\ len mod 2 = 1.
Proof.
  induction fuel as [|n IH]; intros len acc d q B L M H; [lia|]. cbn [mandatory_loop] in H.
  destruct (N.eqb_spec len 0) as [->|Z]; [destruct f; discriminate|].
  apply peel in H; [|calm_prim]. destruct H as (k & b1 & E1 & H). apply u16_as_ok in E1. destruct E1 as (-> & L2 & _).
  apply fails_bind in H. destruct H as [H|(l & b' & E & H)].
  - unfold lift in H. cbn [fst] in H. apply usub_fails in H. destruct H as (H1 & H2 & H3). split; [exact H1|]. split; [exact H2|].
    assert (len = 1) as -> by lia. reflexivity.
  - apply lift_ok in E. destruct E as [U ->]. apply usub_cases in U; [|exact M|unfold M64; lia].
    apply IH in H; [|exact B|lia|unfold M64 in *; lia]. destruct H as (H1 & H2 & H3). split; [exact H1|]. split; [exact H2|].
    destruct U as [[U ->]|[U ->]]; [lia|]. assert (len = 1) as -> by lia. reflexivity.
Qed.
Lemma alpn_fails f c d base total : byte_list d -> forall fuel len acc q ss, (length d - q < fuel)%nat -> len < M64 -> (q <= length d)%nat ->
  (len = 0 -> (q <= base + N.to_nat total)%nat) ->
  (ovf c = true -> consecutive (string_at d) base ss q /\ (q + N.to_nat len = base + N.to_nat total)%nat) ->
  fails f (fst (alpn_loop c fuel len acc (mkbuf d q))) -> f = Panics /\ ovf c = true /\
  exists ss k s e, consecutive (string_at d) base ss k /\ (k < base + N.to_nat total)%nat /\ string_at d k s e /\ (base + N.to_nat total < e)%nat.
Proof.
  intros B. induction fuel as [|n IH]; intros len acc q ss L M Lq Z0 HC H; [lia|]. cbn [alpn_loop] in H.
  destruct (N.eqb_spec len 0) as [->|Z]; [destruct f; discriminate|]. clear Z0.
  apply peel in H; [|calm_prim]. destruct H as (x & b1 & E1 & H). apply u8_got in E1; [|exact B]. destruct E1 as (-> & N1 & N8 & L1).
  apply peel in H; [|calm_prim]. destruct H as (s & b1 & E1 & H). apply bytes_got in E1. destruct E1 as (-> & Es & Ln & L2).
  assert (SA : string_at d q s (q + 1 + N.to_nat x)).
  { unfold string_at, octet_at. rewrite Ln, N2Nat.id. repeat split; [exact N1|exact L2|symmetry; exact Es]. }
  apply fails_bind in H. destruct H as [H|(l & b' & E & H)].
  - unfold lift in H. cbn [fst] in H. apply usub_fails in H. destruct H as (H1 & H2 & H3). split; [exact H1|]. split; [exact H2|].
    destruct (HC H2) as [C1 C2]. exists ss, q, s, (q + 1 + N.to_nat x)%nat. split; [exact C1|]. split; [lia|]. split; [exact SA|lia].
  - apply lift_ok in E. destruct E as [U ->]. destruct (ovf c) eqn:O.
    + destruct (HC eq_refl) as [C1 C2]. unfold usub in U. rewrite O in U. destruct (N.leb_spec (x + 1) len) as [Lx|]; [|discriminate].
      apply Ok_inj in U. subst l. apply (IH _ _ _ (ss ++ [s])) in H; [exact H|lia|lia|exact L2|lia|].
      intros _. split; [|lia]. clear - C1 SA. induction C1 as [p|p y m xs e E' Lm C IH']; cbn [app].
      * econstructor; [exact SA|destruct SA as (_ & _ & _ & ->); lia|constructor].
      * econstructor; [exact E'|exact Lm|apply IH', SA].
    + exfalso. revert H. clear - B O L2 U L M. assert (Ml : l < M64).
      { unfold usub in U. rewrite O in U. destruct (_ <=? _); apply Ok_inj in U; subst l; [unfold M64 in *; lia|apply N.mod_lt; discriminate]. }
      clear U M. intros H. revert H. assert (Ln : (length d - (q + 1 + N.to_nat x) < n)%nat) by lia. clear L. revert l Ml acc s Ln L2.
      generalize (q + 1 + N.to_nat x)%nat. intros q' l Ml acc s. generalize (acc ++ [s]). clear acc s. clear q x.
      revert q' l Ml. induction n as [|n IH]; intros q l Ml acc Ln L2 H; [lia|]. cbn [alpn_loop] in H.
      destruct (N.eqb_spec l 0) as [->|Z]; [destruct f; discriminate|].
      apply peel in H; [|calm_prim]. destruct H as (x & b1 & E1 & H). apply u8_got in E1; [|exact B]. destruct E1 as (-> & N1 & N8 & L1).
      apply peel in H; [|calm_prim]. destruct H as (s & b1 & E1 & H). apply bytes_got in E1. destruct E1 as (-> & Es & Lns & L3).
      apply fails_bind in H. destruct H as [H|(l' & b' & E & H)].
      * unfold lift in H. cbn [fst] in H. apply usub_fails in H. destruct H as (_ & H & _). congruence.
      * apply lift_ok in E. destruct E as [U ->]. apply (IH _ _) in H; [exact H| |lia|exact L3].
        unfold usub in U. rewrite O in U. destruct (_ <=? _); apply Ok_inj in U; subst l'; [unfold M64 in *; lia|apply N.mod_lt; discriminate].
Qed.
Lemma pkey_zero n : pkey_try_from n = Ok KMandatory -> n = 0.
Proof. intros E. destruct (pkey_faithful) as (_ & F & _). apply F in E. destruct E as [_ E]. exact (eq_sym E). Qed.
Lemma pkey_one n : pkey_try_from n = Ok KAlpn -> n = 1.
Proof. intros E. destruct (pkey_faithful) as (_ & F & _). apply F in E. destruct E as [_ E]. exact (eq_sym E). Qed.
Lemma param_fails f c d q : byte_list d -> (q <= length d)%nat -> fails f (fst (param_try_from c (mkbuf d q))) ->
  f = Panics /\ ovf c = true /\ param_underflow d q.
Proof.
  intros B L H. unfold param_try_from in H.
  apply peel in H; [|calm_prim]. destruct H as (k & b1 & E1 & H). apply (u16_as_got _ _ _ _ _ B) in E1. destruct E1 as (n & U1 & K & ->).
  apply peel in H; [|calm_prim]. destruct H as (len & b1 & E1 & H). apply (u16_got _ _ _ _ B) in E1. destruct E1 as (U2 & ->).
  pose proof (u16_at_lt _ _ _ U2) as Ll. pose proof (u16_at_end _ _ _ U2) as L2.
  replace (q + 2 + 2)%nat with (q + 4)%nat in * by lia.
  destruct k; try (exfalso; revert H; match goal with |- fails _ (fst (?p ?b)) -> _ => apply (fun C : calm p => C f b) end; calm_all; fail).
  - apply pkey_zero in K. subst n. apply fails_bind in H. destruct H as [H|(a & b' & _ & H)]; [|destruct f; discriminate].
    apply mandatory_fails in H; [|exact B|unfold remaining; cbn [data pos]; lia|unfold M64; lia].
    destruct H as (H1 & H2 & H3). split; [exact H1|]. split; [exact H2|]. exists len. split; [exact U2|]. left. split; assumption.
  - apply pkey_one in K. subst n. apply fails_bind in H. destruct H as [H|(a & b' & _ & H)]; [|destruct f; discriminate].
    apply (alpn_fails f c d (q + 4) len B _ _ _ _ []) in H;
      [|unfold remaining; cbn [data pos]; lia|unfold M64; lia|lia|lia|intros _; split; [constructor|lia]].
    destruct H as (H1 & H2 & H3). split; [exact H1|]. split; [exact H2|]. exists len. split; [exact U2|]. right. split; assumption.
Qed.
Lemma param_step_fails f c acc d q : byte_list d -> (q <= length d)%nat -> fails f (fst (param_step c acc (mkbuf d q))) ->
  f = Panics /\ ovf c = true /\ param_underflow d q.
Proof.
  intros B L H. unfold param_step, sub_buffer, remaining in H. cbn [data pos] in H.
  destruct (Nat.ltb_spec (length d) (q + (length d - q))); [lia|].
  replace (q + (length d - q))%nat with (length d) in H by lia. rewrite firstn_all in H.
  apply (param_fails f c d q B L). destruct (param_try_from c (mkbuf d q)) as [[p|e| |] sb]; cbn [fst] in *;
    [|destruct f; discriminate|destruct f; [reflexivity|discriminate]|destruct f; [discriminate|reflexivity]].
  apply fails_bind in H. destruct H as [H|(a & b' & _ & H)]; [|destruct f; discriminate].
  unfold set_position in H. destruct (_ <? _)%nat; destruct f; discriminate.
Qed.

(** ** Record data *)
Lemma opt_step_got m d q v b : byte_list d -> opt_step m (mkbuf d q) = (Ok v, b) ->
  exists (x : unit) e, True /\ (q < e <= length d)%nat /\ b = mkbuf d e.
Proof.
  intros B E. unfold opt_step in E. apply bind_ok in E. destruct E as (k & b1 & E1 & E). apply (u16_got _ _ _ _ B) in E1. destruct E1 as [_ ->].
  apply bind_ok in E. destruct E as (l & b1 & E1 & E). apply (u16_got _ _ _ _ B) in E1. destruct E1 as [_ ->].
  apply bind_ok in E. destruct E as (x & b1 & E1 & E). apply bytes_got in E1. destruct E1 as (-> & _ & _ & L).
  cbn [ret] in E. injection E as _ <-. exists tt. eexists. split; [exact I|]. split; [|reflexivity]. lia.
Qed.
Lemma txt_step_got m d q v b : byte_list d -> txt_step m (mkbuf d q) = (Ok v, b) ->
  exists (x : unit) e, True /\ (q < e <= length d)%nat /\ b = mkbuf d e.
Proof.
  intros B E. unfold txt_step in E. apply bind_ok in E. destruct E as (k & b1 & E1 & E).
  apply u8_got in E1; [|exact B]. destruct E1 as (-> & _ & _ & L1). apply bind_ok in E. destruct E as (x & b1 & E1 & E).
  apply bytes_got in E1. destruct E1 as (-> & _ & _ & L). cbn [ret] in E. injection E as _ <-. exists tt.
  eexists. split; [exact I|]. split; [|reflexivity]. lia.
Qed.
Definition failure_cause (f : failure) (c : cfg) (d : bytes) (t : rtype) (q : nat) : Prop :=
  (exists p, name_place d t q p /\ (q <= p <= length d)%nat /\ bad_name f d p) \/
  f = Panics /\ ovf c = true /\ overflow_in d t q.

Lemma pmap_fails {A B} f (g : A -> B) p b : fails f (fst (pmap g p b)) -> fails f (fst (p b)).
Proof. intros H. apply fails_bind in H. destruct H as [H|(a & b' & _ & H)]; [exact H|destruct f; discriminate]. Qed.
Lemma calm_tail {A} f (p : P A) b (G : Prop) : calm p -> fails f (fst (p b)) -> G.
Proof. intros C H. destruct (C _ _ H). Qed.
Ltac pl H := apply peel in H; [|calm_prim]; let a := fresh "a" in let b := fresh "b" in let E := fresh "E" in destruct H as (a & b & E & H).
Lemma place_now f c d t q p : name_place d t q p -> (q <= p <= length d)%nat -> bad_name f d p -> failure_cause f c d t q.
Proof. intros H1 H2 H3. left. exists p. auto. Qed.
Ltac calm_end H := match type of H with fails ?f (fst (?p ?b)) => apply (calm_tail f p b); [calm_all|exact H] end.

Lemma name_fails f c d t q : byte_list d -> (q <= length d)%nat -> In t [NS; CNAME; PTR; SOA; MINFO; NSEC; TKEY; TSIG] ->
  fails f (fst (name_try_from (mkbuf d q))) -> failure_cause f c d t q.
Proof.
  intros B L I H. apply (place_now f c d t q q); [constructor 1; exact I|lia|]. apply fails_fqdn; assumption.
Qed.
Lemma consecutive_end {X} (entry : nat -> X -> nat -> Prop) p xs e : consecutive entry p xs e -> (p <= e)%nat.
Proof. induction 1; lia. Qed.

Lemma rdata_fails f c t d q : byte_list d -> (q <= length d)%nat -> fails f (fst (rdata_from c t (mkbuf d q))) ->
  failure_cause f c d t q.
Proof.
  intros B L H. destruct t; cbn [rdata_from] in H; apply pmap_fails in H;
    try (match type of H with fails ?f (fst (?p ?b)) => apply (calm_tail f p b); [unfold p; calm_all; fail|exact H] end);
    try (apply name_fails; [exact B|exact L|cbn [In]; tauto|exact H]).
  - (* SOA *) unfold soa_try_from in H. apply peel_name in H; [|exact B|exact L]. destruct H as [H|(m & k & N & Lk & H)].
    { apply (place_now f c d _ q q); [constructor 1; cbn [In]; tauto|lia|exact H]. }
    apply peel_name in H; [|exact B|lia]. destruct H as [H|(r & k' & N' & Lk' & H)].
    { apply (place_now f c d _ q k); [econstructor 2; [cbn [In]; tauto|exact N]|lia|exact H]. }
    calm_end H.
  - (* MINFO *) unfold minfo_try_from in H. apply peel_name in H; [|exact B|exact L]. destruct H as [H|(m & k & N & Lk & H)].
    { apply (place_now f c d _ q q); [constructor 1; cbn [In]; tauto|lia|exact H]. }
    apply peel_name in H; [|exact B|lia]. destruct H as [H|(r & k' & N' & Lk' & H)].
    { apply (place_now f c d _ q k); [econstructor 2; [cbn [In]; tauto|exact N]|lia|exact H]. }
    calm_end H.
  - (* MX *) unfold mx_try_from in H. pl H. apply (u16_got _ _ _ _ B) in E. destruct E as (U & ->).
    apply peel_name in H; [|exact B|apply u16_at_end in U; exact U]. destruct H as [H|(r & k' & N' & Lk' & H)]; [|calm_end H].
    apply (place_now f c d _ q (q + 2)); [constructor; cbn [In]; tauto|apply u16_at_end in U; lia|exact H].
  - (* TXT *) unfold txt_try_from in H. apply (loop_fails f (fun _ (x : unit) _ => True) (fun _ => False)) in H.
    + destruct H as (xs & p & _ & _ & []).
    + intros a p _ F. match type of F with fails ?f (fst (?p ?b)) => apply (calm_tail f p b); [unfold txt_step; calm_all|exact F] end.
    + intros a p v b _ E. apply (txt_step_got _ _ _ _ _ B E).
    + exact L.
  - (* SRV *) unfold srv_try_from in H. pl H. apply (u16_got _ _ _ _ B) in E. destruct E as (_ & ->).
    pl H. apply (u16_got _ _ _ _ B) in E. destruct E as (_ & ->). pl H. apply (u16_got _ _ _ _ B) in E. destruct E as (U & ->).
    replace (q + 2 + 2 + 2)%nat with (q + 6)%nat in H by lia. apply u16_at_end in U.
    apply peel_name in H; [|exact B|lia]. destruct H as [H|(r & k' & N' & Lk' & H)]; [|calm_end H].
    apply (place_now f c d _ q (q + 6)); [constructor|lia|exact H].
  - (* NAPTR *) unfold naptr_try_from in H. pl H. apply (u16_got _ _ _ _ B) in E. destruct E as (_ & ->).
    pl H. apply (u16_got _ _ _ _ B) in E. destruct E as (_ & ->).
    pl H. apply char_string_got in E; [|exact B]. destruct E as (-> & O1 & L1 & _).
    pl H. apply char_string_got in E; [|exact B]. destruct E as (-> & O2 & L2 & _).
    pl H. apply string_got in E; [|exact B]. destruct E as (-> & O3 & L3).
    apply peel_name in H; [|exact B|lia]. destruct H as [H|(r & k' & N' & Lk' & H)]; [|calm_end H].
    eapply (place_now f c d _ q (q + 7 + length a1 + length a2 + length a3)); [apply replacement| |].
    + replace (q + 4)%nat with (q + 2 + 2)%nat by lia. exact O1.
    + replace (q + 5 + length a1)%nat with (q + 2 + 2 + 1 + length a1)%nat by lia. exact O2.
    + replace (q + 6 + length a1 + length a2)%nat with (q + 2 + 2 + 1 + length a1 + 1 + length a2)%nat by lia. exact O3.
    + lia.
    + replace (q + 7 + length a1 + length a2 + length a3)%nat with (q + 2 + 2 + 1 + length a1 + 1 + length a2 + 1 + length a3)%nat by lia. exact H.
  - (* OPT *) unfold opt_try_from in H. apply (loop_fails f (fun _ (x : unit) _ => True) (fun _ => False)) in H.
    + destruct H as (xs & p & _ & _ & []).
    + intros a p _ F. match type of F with fails ?f (fst (?p ?b)) => apply (calm_tail f p b); [unfold opt_step; calm_all|exact F] end.
    + intros a p v b _ E. apply (opt_step_got _ _ _ _ _ B E).
    + exact L.
  - (* APL *) unfold apl_try_from in H. pl H. pl H. pl H. cbn zeta in H. pl H.
    match type of H with fails ?f (fst (?p ?b)) => apply (calm_tail f p b); [|exact H] end.
    destruct a as [|[[]|[]|]]; calm_all.
  - (* IPSECKEY *) unfold ipseckey_try_from in H. pl H. apply u8_got in E; [|exact B]. destruct E as (-> & _ & _ & _).
    pl H. apply u8_got in E; [|exact B]. destruct E as (-> & O & _ & _). pl H. apply u8_as_got in E; [|exact B]. destruct E as (-> & L3).
    replace (q + 1 + 1 + 1)%nat with (q + 3)%nat in * by lia.
    apply fails_bind in H. destruct H as [H|(g & b' & _ & H)]; [|calm_end H].
    assert (C : a0 = 3 \/ a0 <> 3) by lia. destruct C as [->|C].
    + apply peel_name in H; [|exact B|exact L3]. destruct H as [H|(r & k' & N' & Lk' & H)]; [|calm_end H].
      apply (place_now f c d _ q (q + 3)); [apply gateway_name; exact O|lia|exact H].
    + match type of H with fails ?f (fst (?p ?b)) => apply (calm_tail f p b); [|exact H] end.
      destruct a0 as [|[[]|[]|]]; try lia; calm_all.
  - (* RRSIG *) unfold rrsig_try_from in H. pl H. apply (u16_as_got _ _ _ _ _ B) in E. destruct E as (n & _ & _ & ->).
    pl H. apply u8_as_got in E; [|exact B]. destruct E as (-> & _). pl H. apply u8_got in E; [|exact B]. destruct E as (-> & _).
    pl H. apply u32_got in E. destruct E as (-> & _). pl H. apply u32_got in E. destruct E as (-> & _). pl H. apply u32_got in E. destruct E as (-> & _).
    pl H. apply (u16_got _ _ _ _ B) in E. destruct E as (U & ->). apply u16_at_end in U.
    replace (q + 2 + 1 + 1 + 4 + 4 + 4 + 2)%nat with (q + 18)%nat in H by lia.
    apply peel_name in H; [|exact B|lia]. destruct H as [H|(r & k' & N' & Lk' & H)]; [|calm_end H].
    apply (place_now f c d _ q (q + 18)); [constructor|lia|exact H].
  - (* NSEC *) unfold nsec_try_from in H. apply peel_name in H; [|exact B|exact L]. destruct H as [H|(nm & k & N & Lk & H)].
    { apply (place_now f c d _ q q); [constructor 1; cbn [In]; tauto|lia|exact H]. }
    apply fails_bind in H. destruct H as [H|(ts & b' & _ & H)]; [|calm_end H].
    apply types_fails in H; [|exact B|lia]. destruct H as (H1 & H2 & H3). right. split; [exact H1|]. split; [exact H2|].
    exists nm, k. split; assumption.
  - (* DHCID *) unfold dhcid_try_from in H. pl H. pl H.
    match type of H with fails ?f (fst (?p ?b)) => apply (calm_tail f p b); [|exact H] end.
    destruct (negb (a0 =? 1)); calm_all.
  - (* HIP *) unfold hip_try_from in H. pl H. apply u8_got in E; [|exact B]. destruct E as (-> & O & _ & _).
    pl H. apply u8_as_got in E; [|exact B]. destruct E as (-> & _). pl H. apply (u16_got _ _ _ _ B) in E. destruct E as (U & ->).
    pl H. apply bytes_got in E. destruct E as (-> & _ & _ & _). pl H. apply bytes_got in E. destruct E as (-> & _ & _ & L4).
    replace (q + 1 + 1 + 2)%nat with (q + 4)%nat in * by lia.
    unfold remaining in H. cbn [data pos] in H. destruct (Nat.eqb_spec (length d - (q + 4 + N.to_nat a + N.to_nat a1)) 0); [destruct f; discriminate|].
    apply fails_bind in H. destruct H as [H|(ts & b' & _ & H)]; [|calm_end H].
    apply (loop_fails f (name_at d 191) (bad_name f d)) in H.
    + destruct H as (fs & p & C & Lp & H). apply (place_now f c d _ q p); [|lia|exact H].
      eapply rendezvous; [|replace (q + 2)%nat with (q + 1 + 1)%nat by lia; exact U|exact C|lia]. unfold octet_at. rewrite N2Nat.id. exact O.
    + intros x p Lp F. unfold names_step in F. apply peel_name in F; [|exact B|exact Lp]. destruct F as [F|(r & k' & N' & Lk' & F)]; [exact F|calm_end F].
    + intros x p v b' Lp E. unfold names_step in E. apply bind_ok in E. destruct E as (nm & b1 & E1 & E).
      destruct (name_got _ _ _ _ B Lp E1) as (k & N & ->). cbn [ret] in E. injection E as _ <-. exists nm, k.
      pose proof (name_at_end _ _ _ _ N). split; [exact N|]. split; [lia|reflexivity].
    + exact L4.
  - (* CSYNC *) unfold csync_try_from in H. pl H. apply u32_got in E. destruct E as (-> & _). pl H.
    apply (u16_as_got _ _ _ _ _ B) in E. destruct E as (n & U & _ & ->). apply u16_at_end in U.
    replace (q + 4 + 2)%nat with (q + 6)%nat in * by lia.
    apply fails_bind in H. destruct H as [H|(ts & b' & _ & H)]; [|calm_end H].
    apply types_fails in H; [|exact B|lia]. destruct H as (H1 & H2 & H3). right. split; [exact H1|]. split; [exact H2|]. exact H3.
  - (* SVCB *) unfold svcb_try_from in H. pl H. apply (u16_got _ _ _ _ B) in E. destruct E as (U & ->). apply u16_at_end in U.
    apply peel_name in H; [|exact B|exact U]. destruct H as [H|(nm & k & N & Lk & H)].
    { apply (place_now f c d _ q (q + 2)); [constructor; cbn [In]; tauto|lia|exact H]. }
    apply fails_bind in H. destruct H as [H|(ts & b' & _ & H)]; [|calm_end H].
    apply (loop_fails f (fun p x e => param_try_from c (mkbuf d p) = (Ok x, mkbuf d e))
             (fun p => f = Panics /\ ovf c = true /\ param_underflow d p)) in H.
    + destruct H as (xs & p & C & Lp & H1 & H2 & H3). right. split; [exact H1|]. split; [exact H2|].
      exists nm, k, p. split; [exact N|]. split; [lia|exact H3].
    + intros x p Lp F. apply (param_step_fails _ _ _ _ _ B Lp F).
    + intros x p v b' Lp E. destruct (param_step_ok _ _ _ _ _ _ B Lp E) as (y & q' & EP & _ & -> & I). exists y, q'. split; [exact EP|]. split; [lia|reflexivity].
    + lia.
  - (* TKEY *) unfold tkey_try_from in H. apply peel_name in H; [|exact B|exact L]. destruct H as [H|(nm & k & N & Lk & H)]; [|calm_end H].
    apply (place_now f c d _ q q); [constructor 1; cbn [In]; tauto|lia|exact H].
  - (* TSIG *) unfold tsig_try_from in H. apply peel_name in H; [|exact B|exact L]. destruct H as [H|(nm & k & N & Lk & H)]; [|calm_end H].
    apply (place_now f c d _ q q); [constructor 1; cbn [In]; tauto|lia|exact H].
  - (* CAA *) unfold caa_try_from in H. pl H. pl H.
    match type of H with fails ?f (fst (?p ?b)) => apply (calm_tail f p b); [|exact H] end.
    destruct (a0 =? 0); calm_all.
Qed.

(** For most types the place of the first name is fixed; there a bad name is also enough. *)
Definition name_offset (t : rtype) : option nat :=
  match t with
  | NS | CNAME | PTR | SOA | MINFO | NSEC | TKEY | TSIG => Some 0%nat
  | MX | SVCB => Some 2%nat
  | SRV => Some 6%nat
  | _ => None
  end.
Lemma fails_first {A} f (g : fqdn -> P A) d p : byte_list d -> bad_name f d p -> fails f (fst (bind extract_fqdn g (mkbuf d p))).
Proof. intros B H. apply fails_bind. left. apply fails_fqdn; assumption. Qed.
Lemma u16_somehow d q : byte_list d -> (q + 2 <= length d)%nat -> exists n, extract_u16 (mkbuf d q) = (Ok n, mkbuf d (q + 2)).
Proof.
  intros B L. unfold extract_u16, extract_bytes, bind. cbn [data pos]. destruct (Nat.ltb_spec (length d) (q + 2)); [lia|].
  eexists. reflexivity.
Qed.
Lemma fails_after {A} f (g : N -> P A) d q : byte_list d -> (q + 2 <= length d)%nat ->
  (forall n, fails f (fst (g n (mkbuf d (q + 2))))) -> fails f (fst (bind extract_u16 g (mkbuf d q))).
Proof. intros B L H. apply fails_bind. right. destruct (u16_somehow d q B L) as [n E]. exists n, (mkbuf d (q + 2)). split; [exact E|apply H]. Qed.
Lemma rdata_fails_first f c t d q o : byte_list d -> name_offset t = Some o -> (q + o <= length d)%nat -> bad_name f d (q + o) ->
  fails f (fst (rdata_from c t (mkbuf d q))).
Proof.
  intros B O L H. destruct t; cbn [name_offset] in O; try discriminate; injection O as <-; try (rewrite Nat.add_0_r in H);
    cbn [rdata_from]; apply fails_bind; left; try (apply fails_first; assumption); try (apply fails_fqdn; assumption).
  - apply fails_after; [exact B|exact L|]. intros n. apply fails_first; assumption.
  - apply fails_after; [exact B|lia|]. intros n. apply fails_after; [exact B|lia|]. intros n'. apply fails_after; [exact B|lia|].
    intros n2. replace (q + 2 + 2 + 2)%nat with (q + 6)%nat by lia. apply fails_first; assumption.
  - apply fails_after; [exact B|exact L|]. intros n. apply fails_first; assumption.
Qed.

(** ** Packets *)
Lemma calm_qclass n : calm (lift (qclass_try_from n)).
Proof. unfold qclass_try_from. destruct (assoc _ _); apply calm_lift; discriminate. Qed.
Lemma question_fails_iff f c d p : byte_list d -> fails f (fst (question_try_from c (mkbuf d p))) <-> question_fails f d p.
Proof.
  intros B. unfold question_fails. split.
  - intros H. unfold question_try_from in H. apply fails_bind in H. destruct H as [H|(a & b & _ & H)]; [apply fails_fqdn; assumption|].
    match type of H with fails ?f (fst (?p ?b)) => apply (calm_tail f p b); [|exact H] end.
    apply calm_bind; [calm_prim|intros t]. destruct (mdns c).
    + apply calm_bind; [calm_prim|intros v]. destruct (negb _); (apply calm_bind; [apply calm_qclass|intros; calm_all]).
    + apply calm_bind; [apply calm_bind; [calm_prim|apply calm_qclass]|intros; calm_all].
  - intros H. unfold question_try_from. apply fails_first; assumption.
Qed.
Lemma framed_fails {A} f len (p : P A) d q : fails f (fst (framed len p (mkbuf d q))) <->
  (q + len <= length d)%nat /\ fails f (fst (p (mkbuf (firstn (q + len) d) q))).
Proof.
  unfold framed, sub_buffer. cbn [data pos]. destruct (Nat.ltb_spec (length d) (q + len)) as [L|L].
  - split; [intros H; destruct f; discriminate|intros [H _]; lia].
  - destruct (p _) as [[a|e| |] b] eqn:E; cbn [fst].
    + split; [|intros [_ H]; destruct f; discriminate]. intros H. apply fails_bind in H.
      destruct H as [H|(x & b' & _ & H)]; [|destruct f; discriminate]. unfold advance in H. destruct (_ <? _)%nat; destruct f; discriminate.
    + split; [intros H; destruct f; discriminate|intros [_ H]; exact H || (destruct f; discriminate)].
    + split; [intros H; split; [exact L|destruct f; [reflexivity|discriminate]]|intros [_ H]; destruct f; [reflexivity|discriminate]].
    + split; [intros H; split; [exact L|destruct f; [discriminate|reflexivity]]|intros [_ H]; destruct f; [discriminate|reflexivity]].
Qed.
Lemma record_fails_iff f c d p : byte_list d -> (p <= length d)%nat -> fails f (fst (rr_try_from c (mkbuf d p))) <-> record_fails f c d p.
Proof.
  intros B L. split.
  - intros H. unfold rr_try_from in H. apply peel_name in H; [|exact B|exact L]. destruct H as [H|(nm & k & N & Lk & H)]; [left; exact H|right].
    pl H. apply (u16_as_got _ _ _ _ _ B) in E. destruct E as (n & U1 & T & ->).
    destruct (rtype_faithful c) as (_ & F2 & _). destruct (F2 n a T) as [D <-].
    pl H. apply (u16_got _ _ _ _ B) in E. destruct E as (_ & ->). pl H. apply bytes_got in E. destruct E as (-> & _).
    pl H. apply (u16_got _ _ _ _ B) in E. destruct E as (U & ->).
    apply fails_bind in H. destruct H as [H|(x & b' & _ & H)]; [|destruct f; discriminate].
    apply framed_fails in H. destruct H as [L2 H].
    replace (k + 2 + 2 + 4)%nat with (k + 8)%nat in * by lia. replace (k + 8 + 2)%nat with (k + 10)%nat in * by lia.
    exists nm, k, a, a2, (k + 10 + N.to_nat a2)%nat. repeat (split; [assumption || reflexivity|]). exact H.
  - intros [H|(nm & k & t & len & e & N & U1 & D & U2 & -> & Le & H)]; unfold rr_try_from.
    + apply fails_first; assumption.
    + apply fails_bind. right. exists nm, (mkbuf d k). split; [apply extract_fqdn_complete, N|].
      apply fails_bind. right. exists t, (mkbuf d (k + 2)). split; [apply (u16_as_read _ _ _ _ _ U1), (proj1 (rtype_faithful c) _ D)|].
      pose proof (u16_at_end _ _ _ U2) as L2.
      apply fails_after; [exact B|lia|]. intros v. apply fails_bind. right. eexists. exists (mkbuf d (k + 2 + 2 + 4)). split.
      { unfold extract_bytes. cbn [data pos]. destruct (Nat.ltb_spec (length d) (k + 2 + 2 + 4)); [lia|reflexivity]. }
      apply fails_bind. right. replace (k + 2 + 2 + 4)%nat with (k + 8)%nat by lia. exists len, (mkbuf d (k + 8 + 2)).
      split; [apply u16_read, U2|]. replace (k + 8 + 2)%nat with (k + 10)%nat by lia.
      apply fails_bind. left. apply framed_fails. split; assumption.
Qed.

Section Section_.
Context {X : Type} (f : failure) (p : P X) (entry : bytes -> nat -> X -> nat -> Prop) (bad : bytes -> nat -> Prop).
Hypothesis got : forall d q x b, byte_list d -> (q <= length d)%nat -> p (mkbuf d q) = (Ok x, b) ->
  exists e, entry d q x e /\ b = mkbuf d e.
Hypothesis read : forall d q x e, entry d q x e -> p (mkbuf d q) = (Ok x, mkbuf d e).
Hypothesis ends : forall d q x e, entry d q x e -> (q < e <= length d)%nat.
Hypothesis badp : forall d q, byte_list d -> (q <= length d)%nat -> fails f (fst (p (mkbuf d q))) <-> bad d q.
Lemma section_fails_iff d n : byte_list d -> forall q, (q <= length d)%nat ->
  fails f (fst (repeatP n p (mkbuf d q))) <-> section_fails (entry d) (bad d) (N.of_nat n) q.
Proof.
  intros B. induction n as [|n IH]; intros q L; cbn [repeatP].
  - split; [intros H; destruct f; discriminate|]. intros (xs & m & H & _). lia.
  - rewrite fails_bind. split.
    + intros [H|(x & b & E & H)].
      * exists [], q. split; [cbn [length]; lia|]. split; [constructor|]. apply badp; assumption.
      * destruct (got _ _ _ _ B L E) as (e & En & ->). pose proof (ends _ _ _ _ En) as Le.
        apply fails_bind in H. destruct H as [H|(l & b & _ & H)]; [|destruct f; discriminate].
        apply IH in H; [|lia]. destruct H as (xs & m & Lx & C & Bm). exists (x :: xs), m. cbn [length].
        split; [lia|]. split; [econstructor; [exact En|lia|exact C]|exact Bm].
    + intros (xs & m & Lx & C & Bm). inversion C; subst.
      * left. apply badp; assumption.
      * right. exists x, (mkbuf d m0). split; [apply read; assumption|]. apply fails_bind. left. apply IH.
        { pose proof (ends _ _ _ _ H). lia. }
        exists xs0, m. cbn [length] in Lx. split; [lia|]. split; assumption.
Qed.
End Section_.

Lemma packet_fails_iff f c d : byte_list d -> fails f (packet_try_from c d) <-> packet_fails f c d.
Proof.
  intros B. unfold packet_try_from, packet_try_from_buf, packet_fails. rewrite fails_bind.
  destruct (le_lt_dec 12 (length d)) as [L|L].
  2: { split; [|intros [H _]; lia]. intros H. exfalso. clear B. do 12 (destruct d as [|? d]; [destruct H as [H|(a & b & E & _)]; [destruct f; discriminate|discriminate]|]).
       cbn [length] in L. lia. }
  assert (B12 : byte_list (firstn 12 d)) by (apply firstn_byte_list, B).
  destruct (header_bytes12 d B12 L) as (h & Th & Eh & Vh). rewrite fields_firstn in Vh by exact L.
  assert (QS : forall n q, (q <= length d)%nat -> forall xs b, repeatP n (question_try_from c) (mkbuf d q) = (Ok xs, b) <->
             exists e, length xs = n /\ consecutive (question_at c d) q xs e /\ b = mkbuf d e).
  { intros n q Lq xs b. split.
    - intros E. apply (section_got _ _ (question_got c) (question_read c) (question_ends c) d _ B _ _ _ Lq) in E.
      destruct E as (e & C & -> & Ln & _). exists e. auto.
    - intros (e & <- & C & ->). apply (section_read _ _ (question_read c) _ _ _ _ C). }
  assert (RS : forall n q, (q <= length d)%nat -> forall xs b, repeatP n (rr_try_from c) (mkbuf d q) = (Ok xs, b) <->
             exists e, length xs = n /\ consecutive (record_at c d) q xs e /\ b = mkbuf d e).
  { intros n q Lq xs b. split.
    - intros E. apply (section_got _ _ (record_got c) (record_read c) (record_ends c) d _ B _ _ _ Lq) in E.
      destruct E as (e & C & -> & Ln & _). exists e. auto.
    - intros (e & <- & C & ->). apply (section_read _ _ (record_read c) _ _ _ _ C). }
  assert (QF : forall n q, (q <= length d)%nat -> fails f (fst (repeatP (N.to_nat n) (question_try_from c) (mkbuf d q))) <->
             section_fails (question_at c d) (question_fails f d) n q).
  { intros n q Lq. rewrite <- (N2Nat.id n) at 2. apply (section_fails_iff f _ (question_at c) (question_fails f)); try assumption.
    - apply question_got. - apply question_read. - apply question_ends. - intros d' q' B' _. apply question_fails_iff, B'. }
  assert (RF : forall n q, (q <= length d)%nat -> fails f (fst (repeatP (N.to_nat n) (rr_try_from c) (mkbuf d q))) <->
             section_fails (record_at c d) (record_fails f c d) n q).
  { intros n q Lq. rewrite <- (N2Nat.id n) at 2. apply (section_fails_iff f _ (record_at c) (record_fails f c)); try assumption.
    - apply record_got. - apply record_read. - apply record_ends. - intros d' q' B' L'. apply record_fails_iff; assumption. }
  assert (QE : forall q xs e, (q <= length d)%nat -> consecutive (question_at c d) q xs e -> (e <= length d)%nat).
  { intros q xs e Lq C. apply (section_end _ (question_at c) (question_got c) (question_read c) (question_ends c) d q xs e Lq C). }
  assert (RE : forall q xs e, (q <= length d)%nat -> consecutive (record_at c d) q xs e -> (e <= length d)%nat).
  { intros q xs e Lq C. apply (section_end _ (record_at c) (record_got c) (record_read c) (record_ends c) d q xs e Lq C). }
  rewrite <- Vh. cbn [view v_qd v_an v_ns v_ar].
  split.
  - intros [H|(h' & b & E & H)]; [rewrite Eh in H; destruct f; discriminate|]. rewrite Eh in E. injection E as <- <-. split; [exact L|].
    apply fails_bind in H. destruct H as [H|(qs & b & E & H)]; [left; apply QF; assumption|right].
    apply QS in E; [|exact L]. destruct E as (e1 & L1 & C1 & ->). pose proof (QE _ _ _ L C1) as M1. exists e1. split; [exists qs; split; [lia|exact C1]|].
    apply fails_bind in H. destruct H as [H|(an & b & E & H)]; [left; apply RF; assumption|right].
    apply RS in E; [|exact M1]. destruct E as (e2 & L2 & C2 & ->). pose proof (RE _ _ _ M1 C2) as M2. exists e2. split; [exists an; split; [lia|exact C2]|].
    apply fails_bind in H. destruct H as [H|(au & b & E & H)]; [left; apply RF; assumption|right].
    apply RS in E; [|exact M2]. destruct E as (e3 & L3 & C3 & ->). pose proof (RE _ _ _ M2 C3) as M3. exists e3. split; [exists au; split; [lia|exact C3]|].
    apply fails_bind in H. destruct H as [H|(ad & b & E & H)]; [apply RF; assumption|destruct f; discriminate].
  - intros [_ H]. right. exists h, (mkbuf d 12). split; [exact Eh|]. apply fails_bind.
    destruct H as [H|(e1 & (qs & L1 & C1) & H)]; [left; apply QF; assumption|right].
    pose proof (QE _ _ _ L C1) as M1. exists qs, (mkbuf d e1). split; [apply QS; [exact L|exists e1; split; [lia|auto]]|]. apply fails_bind.
    destruct H as [H|(e2 & (an & L2 & C2) & H)]; [left; apply RF; assumption|right].
    pose proof (RE _ _ _ M1 C2) as M2. exists an, (mkbuf d e2). split; [apply RS; [exact M1|exists e2; split; [lia|auto]]|]. apply fails_bind.
    destruct H as [H|(e3 & (au & L3 & C3) & H)]; [left; apply RF; assumption|right].
    pose proof (RE _ _ _ M2 C3) as M3. exists au, (mkbuf d e3). split; [apply RS; [exact M2|exists e3; split; [lia|auto]]|]. apply fails_bind.
    left. apply RF; assumption.
Qed.
