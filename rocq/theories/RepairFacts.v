(** * The lossy conversion of the model follows the recommendation *)
From Coq Require Import Lia ZifyBool ZifyNat ZifyN.
From Verif Require Import Base Utf8 BaseFacts Utf8Facts RepairSpec.
Ltac Zify.zify_post_hook ::= Z.div_mod_to_equations.

Lemma cons_inj {X} (a b : X) l m : a :: l = b :: m -> a = b /\ l = m.
Proof. intros H. injection H as -> ->. auto. Qed.

(** ** Beginnings of characters, by their octets *)
Lemma begins_one b : begins_char [b] <-> 194 <= b <= 244.
Proof.
  split.
  - intros (cp & t & S & E & T). unfold utf8_encode in E. unfold scalar in S.
    destruct (N.ltb_spec cp 128) as [L|L]; [cbn [app] in E; apply cons_inj in E; destruct E as [_ E]; symmetry in E; contradiction|].
    destruct (N.ltb_spec cp 2048); [|destruct (N.ltb_spec cp 65536)]; cbn [app] in E; apply cons_inj in E; destruct E as [E _]; lia.
  - intros H. unfold begins_char. destruct (N.ltb_spec b 224); [|destruct (N.ltb_spec b 240)].
    + exists ((b - 192) * 64), [128]. split; [unfold scalar; lia|]. split; [|discriminate]. unfold utf8_encode.
      destruct (N.ltb_spec ((b - 192) * 64) 128); [lia|]. destruct (N.ltb_spec ((b - 192) * 64) 2048); [|lia]. cbn [app].
      f_equal; [lia|]. f_equal. lia.
    + set (cp := if b =? 224 then 2048 else (b - 224) * 4096). exists cp, [128 + cp / 64 mod 64; 128 + cp mod 64].
      assert (2048 <= cp < 65536 /\ cp / 4096 = b - 224 /\ scalar cp) as (K1 & K2 & K3) by (unfold cp, scalar; destruct (N.eqb_spec b 224); lia).
      split; [exact K3|]. split; [|discriminate]. unfold utf8_encode.
      destruct (N.ltb_spec cp 128); [lia|]. destruct (N.ltb_spec cp 2048); [lia|]. destruct (N.ltb_spec cp 65536); [|lia]. cbn [app]. f_equal. lia.
    + set (cp := if b =? 240 then 65536 else (b - 240) * 262144). exists cp, [128 + cp / 4096 mod 64; 128 + cp / 64 mod 64; 128 + cp mod 64].
      assert (65536 <= cp < 1114112 /\ cp / 262144 = b - 240 /\ scalar cp) as (K1 & K2 & K3) by (unfold cp, scalar; destruct (N.eqb_spec b 240); lia).
      split; [exact K3|]. split; [|discriminate]. unfold utf8_encode.
      destruct (N.ltb_spec cp 128); [lia|]. destruct (N.ltb_spec cp 2048); [lia|]. destruct (N.ltb_spec cp 65536); [lia|]. cbn [app]. f_equal. lia.
Qed.
Lemma begins_two b x : begins_char [b; x] <-> 224 <= b <= 244 /\ second_ok b x = true.
Proof.
  split.
  - intros (cp & t & S & E & T). unfold utf8_encode in E. unfold scalar in S.
    destruct (N.ltb_spec cp 128) as [L|L]; [discriminate E|].
    destruct (N.ltb_spec cp 2048); [cbn [app] in E; do 2 (apply cons_inj in E; destruct E as [_ E]); symmetry in E; contradiction|].
    unfold second_ok, in_range.
    destruct (N.ltb_spec cp 65536); cbn [app] in E; apply cons_inj in E; destruct E as [E1 E]; apply cons_inj in E; destruct E as [E2 _]; (split; [lia|]); bool_split; try lia.
  - intros [H K]. unfold begins_char. destruct (N.ltb_spec b 240).
    + set (cp := (b - 224) * 4096 + (x - 128) * 64). exists cp, [128].
      assert (2048 <= cp < 65536 /\ 128 <= x <= 191 /\ scalar cp) as (K1 & K2 & K3) by (unfold cp, scalar, second_ok, in_range in *; bool_split; try discriminate; lia).
      split; [exact K3|]. split; [|discriminate]. unfold utf8_encode.
      destruct (N.ltb_spec cp 128); [lia|]. destruct (N.ltb_spec cp 2048); [lia|]. destruct (N.ltb_spec cp 65536); [|lia]. cbn [app].
      clear K K3. f_equal; [lia|]. f_equal; [lia|]. f_equal. lia.
    + set (cp := (b - 240) * 262144 + (x - 128) * 4096). exists cp, [128; 128].
      assert (65536 <= cp < 1114112 /\ 128 <= x <= 191 /\ scalar cp) as (K1 & K2 & K3) by (unfold cp, scalar, second_ok, in_range in *; bool_split; try discriminate; lia).
      split; [exact K3|]. split; [|discriminate]. unfold utf8_encode.
      destruct (N.ltb_spec cp 128); [lia|]. destruct (N.ltb_spec cp 2048); [lia|]. destruct (N.ltb_spec cp 65536); [lia|]. cbn [app].
      clear K K3. f_equal; [lia|]. f_equal; [lia|]. f_equal; [lia|]. f_equal. lia.
Qed.
Lemma begins_three b x y : begins_char [b; x; y] <-> 240 <= b <= 244 /\ second_ok b x = true /\ is_cont y = true.
Proof.
  split.
  - intros (cp & t & S & E & T). unfold utf8_encode in E. unfold scalar in S.
    destruct (N.ltb_spec cp 128) as [L|L]; [discriminate E|].
    destruct (N.ltb_spec cp 2048); [discriminate E|].
    destruct (N.ltb_spec cp 65536); cbn [app] in E; [do 3 (apply cons_inj in E; destruct E as [_ E]); symmetry in E; contradiction|].
    apply cons_inj in E; destruct E as [E1 E]. apply cons_inj in E; destruct E as [E2 E]. apply cons_inj in E; destruct E as [E3 _]. unfold second_ok, is_cont, in_range. split; [lia|]. split; [bool_split; lia|lia].
  - intros (H & K & Y). unfold begins_char. set (cp := (b - 240) * 262144 + (x - 128) * 4096 + (y - 128) * 64). exists cp, [128].
    assert (65536 <= cp < 1114112 /\ 128 <= x <= 191 /\ 128 <= y <= 191 /\ scalar cp) as (K1 & K2 & K3 & K4)
      by (unfold cp, scalar, second_ok, is_cont, in_range in *; bool_split; try discriminate; lia).
    split; [exact K4|]. split; [|discriminate]. unfold utf8_encode.
    destruct (N.ltb_spec cp 128); [lia|]. destruct (N.ltb_spec cp 2048); [lia|]. destruct (N.ltb_spec cp 65536); [lia|]. cbn [app].
    clear K Y K4. f_equal; [lia|]. f_equal; [lia|]. f_equal; [lia|]. f_equal. lia.
Qed.
Lemma begins_long s : begins_char s -> (length s <= 3)%nat.
Proof.
  intros (cp & t & _ & E & T). pose proof (encode_length cp) as L. rewrite E, app_length in L. destruct t; [contradiction|]. cbn [length] in L. lia.
Qed.
(** ** Characters and the scanner *)
Lemma char_scan s l : is_char s -> exists b t, s = b :: t /\ utf8_scan b (t ++ l) = (true, length s).
Proof. intros (cp & S & ->). exists (hd 0 (utf8_encode cp)), (tl (utf8_encode cp)). split; [apply encode_hd|apply scan_encode, S]. Qed.

Lemma scan_false b l n : utf8_scan b l = (false, n) -> exists s t, b :: l = s ++ t /\ length s = n /\ maximal_subpart s t.
Proof.
  intros H.
  assert (NC : forall s t, s <> [] -> s ++ t = b :: l -> ~ is_char s).
  { intros s t _ E C. destruct (char_scan s t C) as (b' & t' & -> & K). cbn [app] in E. injection E as -> E. subst l. rewrite H in K. discriminate K. }
  assert (NX : forall s x t, s ++ x :: t = b :: l -> ~ is_char (s ++ [x])).
  { intros s x t E. apply (NC _ t); [destruct s; discriminate|]. rewrite <- app_assoc. exact E. }
  unfold utf8_scan in H. destruct (N.ltb_spec b 128); [discriminate H|].
  destruct (in_range 194 223 b) eqn:R1.
  { destruct l as [|x l].
    - unfold peek0 in H. cbn [hd] in H. cbv in H. injection H as <-. exists [b], []. split; [reflexivity|]. split; [reflexivity|].
      split; [discriminate|]. split; [left; apply begins_one; unfold in_range in R1; lia|intros; discriminate].
    - unfold peek0 in H. cbn [hd] in H. destruct (is_cont x); [discriminate H|]. injection H as <-. exists [b], (x :: l). split; [reflexivity|]. split; [reflexivity|].
      split; [discriminate|]. split; [left; apply begins_one; unfold in_range in R1; lia|]. intros y l' E. injection E as <- <-. cbn [app].
      split; [rewrite begins_two; unfold in_range in R1; lia|apply (NX [b] x l); reflexivity]. }
  assert (One : forall m, 194 <= b <= 244 -> (m = 1)%nat -> (forall x l', l = x :: l' -> ~ begins_char [b; x]) ->
    exists s t, b :: l = s ++ t /\ length s = m /\ maximal_subpart s t).
  { intros m B -> X. exists [b], l. split; [reflexivity|]. split; [reflexivity|]. split; [discriminate|]. split; [left; apply begins_one, B|].
    intros x l' E. split; [exact (X x l' E)|]. subst l. apply (NX [b] x l'). reflexivity. }
  assert (Zero : second_ok b 0 = false) by (unfold second_ok, in_range; bool_split; try reflexivity; lia).
  destruct (in_range 224 239 b) eqn:R2.
  { unfold in_range in R1, R2. unfold peek0 in H. destruct l as [|x l]; cbn [hd tl] in H.
    - rewrite Zero in H. injection H as <-. apply One; [lia|reflexivity|intros; discriminate].
    - destruct (second_ok b x) eqn:K.
      + assert (Hn : n = 2%nat /\ match l with [] => True | y :: _ => is_cont y = false end).
        { destruct l as [|y l]; cbn [hd] in H; [cbv in H; injection H as <-; auto|]. destruct (is_cont y); [discriminate H|]. injection H as <-. auto. }
        destruct Hn as [-> Hy]. exists [b; x], l. split; [reflexivity|]. split; [reflexivity|]. split; [discriminate|]. split; [left; apply begins_two; split; [lia|exact K]|].
        intros y l' E. subst l. cbn [app]. split; [rewrite begins_three; lia|apply (NX [b; x] y l'); reflexivity].
      + injection H as <-. apply One; [lia|reflexivity|]. intros y l' E. injection E as <- <-. rewrite begins_two, K. intros [_ Q]. discriminate Q. }
  destruct (in_range 240 244 b) eqn:R3.
  { unfold in_range in R1, R2, R3. unfold peek0 in H. destruct l as [|x l]; cbn [hd tl] in H.
    - rewrite Zero in H. injection H as <-. apply One; [lia|reflexivity|intros; discriminate].
    - destruct (second_ok b x) eqn:K.
      + assert (B2 : begins_char [b; x]) by (apply begins_two; split; [lia|exact K]).
        assert (Two : (n = 2)%nat -> (forall y l', l = y :: l' -> ~ begins_char [b; x; y]) ->
          exists s t, b :: x :: l = s ++ t /\ length s = n /\ maximal_subpart s t).
        { intros -> X. exists [b; x], l. split; [reflexivity|]. split; [reflexivity|]. split; [discriminate|]. split; [left; exact B2|].
          intros y l' E. split; [exact (X y l' E)|]. subst l. apply (NX [b; x] y l'). reflexivity. }
        destruct l as [|y l]; cbn [hd tl] in H.
        * cbv in H. injection H as <-. apply Two; [reflexivity|intros; discriminate].
        * destruct (is_cont y) eqn:Y.
          -- assert (n = 3%nat) as ->. { destruct (is_cont (hd 0 l)); congruence. }
             exists [b; x; y], l. split; [reflexivity|]. split; [reflexivity|]. split; [discriminate|].
             split; [left; apply begins_three; split; [lia|auto]|]. intros z l' E. subst l. cbn [app].
             split; [intros Q; apply begins_long in Q; cbn in Q; lia|apply (NX [b; x; y] z l'); reflexivity].
          -- injection H as <-. apply Two; [reflexivity|]. intros z l' E. injection E as <- <-. rewrite begins_three, Y. intros (_ & _ & Q). discriminate Q.
      + injection H as <-. apply One; [lia|reflexivity|]. intros y l' E. injection E as <- <-. rewrite begins_two, K. intros [_ Q]. discriminate Q. }
  injection H as <-. exists [b], l. split; [reflexivity|]. split; [reflexivity|]. split; [discriminate|].
  split; [right; split; [reflexivity|apply (NC [b] l); [discriminate|reflexivity]]|].
  intros x l' E. cbn [app]. split; [rewrite begins_two; unfold in_range in *; lia|subst l; apply (NX [b] x l'); reflexivity].
Qed.

Lemma lossy_repaired f : forall l, (length l <= f)%nat -> repaired l (utf8_lossy_fuel f l).
Proof.
  induction f as [|f IH]; intros [|b l] L; cbn [length utf8_lossy_fuel] in *; try lia; try constructor.
  destruct (utf8_scan b l) as [[|] n] eqn:E.
  - pose proof (scan_bounds b l) as Bd. rewrite E in Bd. apply scan_true in E. destruct E as (cp & S & E & Ln).
    assert (R : repaired (firstn n (b :: l) ++ skipn n (b :: l)) (firstn n (b :: l) ++ utf8_lossy_fuel f (skipn n (b :: l)))).
    { apply repaired_char; [exists cp; split; [exact S|symmetry; exact E]|]. apply IH. rewrite skipn_length. cbn [length]. lia. }
    rewrite firstn_skipn in R. exact R.
  - apply scan_false in E. destruct E as (s & t & E & Ls & M). rewrite E. subst n.
    rewrite skipn_app, skipn_all, Nat.sub_diag. cbn [app skipn]. change replacement with (utf8_encode 65533).
    apply repaired_part; [exact M|]. apply IH. apply (f_equal (@length N)) in E. cbn [length] in E. rewrite app_length in E.
    destruct M as (M & _). destruct s; [contradiction|]. cbn [length] in E. lia.
Qed.

(** ** There is only one way to repair *)
Lemma char_begins s t : is_char s -> ~ begins_char (s ++ t).
Proof.
  intros C (cp & u & S & E & U). destruct (char_scan s (t ++ u) C) as (b & s' & -> & K). pose proof (scan_encode cp [] S) as K'.
  rewrite app_nil_r, E in K'. rewrite <- app_assoc in K'. cbn [app hd tl] in K'. rewrite K in K'. injection K' as K'.
  cbn [app length] in K'. rewrite !app_length in K'. destruct u; [contradiction|]. cbn [length] in K'. lia.
Qed.
Lemma char_nonempty s : is_char s -> s <> [].
Proof. intros (cp & _ & ->) E. pose proof (encode_length cp) as L. rewrite E in L. cbn in L. lia. Qed.
Lemma begins_prefix s t : begins_char (s ++ t) -> begins_char s.
Proof. intros (cp & u & S & E & U). exists cp, (t ++ u). split; [exact S|]. split; [rewrite app_assoc; exact E|]. destruct t; [exact U|discriminate]. Qed.
Lemma char_prefix s t : is_char (s ++ t) -> t <> [] -> begins_char s.
Proof. intros (cp & S & E) T. exists cp, t. split; [exact S|]. split; [symmetry; exact E|exact T]. Qed.
Lemma one_char s s' l l' : is_char s -> is_char s' -> s ++ l = s' ++ l' -> s = s' /\ l = l'.
Proof.
  intros C C' E. apply app_eq_app in E. destruct E as (t & [[E1 E2]|[E1 E2]]).
  - destruct t as [|x t]; [rewrite app_nil_r in E1; auto|]. subst s. exfalso. apply (char_begins s' []); [exact C'|].
    rewrite app_nil_r. apply (char_prefix _ _ C). discriminate.
  - destruct t as [|x t]; [rewrite app_nil_r in E1; auto|]. subst s'. exfalso. apply (char_begins s []); [exact C|].
    rewrite app_nil_r. apply (char_prefix _ _ C'). discriminate.
Qed.
(** A subpart stands in front of no longer one and of no character. *)
Lemma subpart_stops s l x t l' : maximal_subpart s l -> s ++ l = (s ++ x :: t) ++ l' -> ~ begins_char (s ++ x :: t) /\ ~ is_char (s ++ x :: t).
Proof.
  intros (_ & _ & X) E. rewrite <- app_assoc in E. apply app_inv_head in E. cbn [app] in E. destruct (X _ _ E) as [X1 X2].
  replace (s ++ x :: t) with ((s ++ [x]) ++ t) by (rewrite <- app_assoc; reflexivity). split.
  - intros B. apply X1. apply (begins_prefix _ t), B.
  - intros C. destruct t as [|y t]; [rewrite app_nil_r in C; exact (X2 C)|]. apply X1. apply (char_prefix _ _ C). discriminate.
Qed.
Lemma char_not_subpart s s' l l' : is_char s -> maximal_subpart s' l' -> s ++ l = s' ++ l' -> False.
Proof.
  intros C M E. apply app_eq_app in E. destruct E as (t & [[E1 E2]|[E1 E2]]).
  - destruct t as [|x t].
    + rewrite app_nil_r in E1. subst s'. destruct M as (_ & [B|[_ B]] & _); [|exact (B C)]. apply (char_begins s []); [exact C|rewrite app_nil_r; exact B].
    + subst s. apply (subpart_stops s' l' x t l M); [rewrite <- app_assoc; f_equal; exact E2|exact C].
  - subst s'. destruct M as (_ & [B|[L B]] & _); [exact (char_begins s t C B)|]. pose proof (char_nonempty s C) as Z.
    destruct s as [|x [|y s]]; [contradiction| |discriminate L]. destruct t; [|discriminate L]. apply B. rewrite app_nil_r. exact C.
Qed.
Lemma one_subpart s s' l l' : maximal_subpart s l -> maximal_subpart s' l' -> s ++ l = s' ++ l' -> s = s' /\ l = l'.
Proof.
  assert (H : forall s s' l l' x t, maximal_subpart s l -> maximal_subpart s' l' -> s ++ l = s' ++ l' -> s' = s ++ x :: t -> False).
  { clear. intros s s' l l' x t M M' E ->. destruct (subpart_stops s l x t l' M E) as [X _]. destruct M' as (_ & [B|[L _]] & _); [exact (X B)|].
    destruct M as (Z & _). destruct s; [contradiction|]. cbn [app length] in L. rewrite app_length in L. cbn [length] in L. lia. }
  intros M M' E. pose proof E as E0. apply app_eq_app in E. destruct E as (t & [[E1 E2]|[E1 E2]]);
    (destruct t as [|x t]; [rewrite app_nil_r in E1; auto|]); exfalso; [apply (H s' s l' l x t M' M (eq_sym E0) E1)|apply (H s s' l l' x t M M' E0 E1)].
Qed.
Lemma repaired_unique l r : repaired l r -> forall r', repaired l r' -> r = r'.
Proof.
  induction 1 as [|s l r C R IH|s l r M R IH]; intros r' R'.
  - inversion R' as [|s l r C X E|s l r M X E]; [reflexivity|exfalso|exfalso]; symmetry in E || idtac.
    + destruct s; [exact (char_nonempty _ C eq_refl)|discriminate E].
    + destruct s; [destruct M as (Z & _); exact (Z eq_refl)|discriminate E].
  - inversion R' as [E|s' l' q C' X E|s' l' q M' X E].
    + destruct s; [exfalso; exact (char_nonempty _ C eq_refl)|discriminate E].
    + destruct (one_char _ _ _ _ C' C E) as [-> ->]. f_equal. apply IH, X.
    + exfalso. apply (char_not_subpart s s' l l' C M'). symmetry. exact E.
  - inversion R' as [E|s' l' q C' X E|s' l' q M' X E].
    + destruct s; [exfalso; destruct M as (Z & _); exact (Z eq_refl)|discriminate E].
    + exfalso. apply (char_not_subpart s' s l' l C' M). exact E.
    + destruct (one_subpart _ _ _ _ M' M E) as [-> ->]. f_equal. apply IH, X.
Qed.
Lemma repaired_iff l r : utf8_lossy l = r <-> repaired l r.
Proof. split; [intros <-; apply lossy_repaired, Nat.le_refl|]. intros H. apply (repaired_unique l); [apply lossy_repaired, Nat.le_refl|exact H]. Qed.
Lemma repaired_all raw : forall l, Forall2 repaired raw l <-> l = map utf8_lossy raw.
Proof.
  induction raw as [|s raw IH]; intros l; cbn [map].
  - split; [intros H; inversion H; reflexivity|intros ->; constructor].
  - split.
    + intros H. inversion H as [|? t ? l' R F]; subst. apply repaired_iff in R. apply IH in F. subst. reflexivity.
    + intros ->. constructor; [apply repaired_iff; reflexivity|apply IH; reflexivity].
Qed.
