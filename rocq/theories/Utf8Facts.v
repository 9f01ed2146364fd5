(** * UTF-8: the model's scanner against the definition of the encoding. *)
From Verif Require Import Base Utf8 BaseFacts.
From Coq Require Import Lia ZifyBool ZifyNat ZifyN.
Ltac Zify.zify_post_hook ::= Z.div_mod_to_equations.

(** ** Specification (RFC 3629 section 3): encoding of one Unicode scalar value. *)
Definition scalar (cp : N) : Prop := cp < 55296 \/ 57344 <= cp < 1114112.
Definition utf8_encode (cp : N) : bytes :=
  if cp <? 128 then [cp]
  else if cp <? 2048 then [192 + cp / 64; 128 + cp mod 64]
  else if cp <? 65536 then [224 + cp / 4096; 128 + cp / 64 mod 64; 128 + cp mod 64]
  else [240 + cp / 262144; 128 + cp / 4096 mod 64; 128 + cp / 64 mod 64; 128 + cp mod 64].

(** A byte string is UTF-8 text. *)
Definition is_text (l : bytes) : Prop :=
  exists cps, Forall scalar cps /\ l = flat_map utf8_encode cps.

(** ** The scanner *)
Lemma scan_bounds b rest : let '(_, n) := utf8_scan b rest in (1 <= n <= 4)%nat.
Proof.
  unfold utf8_scan.
  repeat match goal with |- context [if ?c then _ else _] => destruct c end; lia.
Qed.

Ltac bool_split := repeat match goal with
  | H : context [if ?c then _ else _] |- _ => destruct c eqn:?
  | |- context [if ?c then _ else _] => destruct c eqn:?
  end.

Lemma scan_encode cp rest : scalar cp ->
  utf8_scan (hd 0 (utf8_encode cp)) (tl (utf8_encode cp) ++ rest) = (true, length (utf8_encode cp)).
Proof.
  intros H. unfold utf8_encode.
  destruct (N.ltb_spec cp 128).
  { cbn [hd]. unfold utf8_scan. destruct (N.ltb_spec cp 128); [reflexivity|lia]. }
  destruct (N.ltb_spec cp 2048).
  { cbn [hd tl app length]. unfold utf8_scan, in_range, is_cont, in_range, peek0. cbn [hd].
    destruct (N.ltb_spec (192 + cp / 64) 128); [lia|].
    replace ((194 <=? 192 + cp / 64) && (192 + cp / 64 <=? 223)) with true by lia.
    replace ((128 <=? 128 + cp mod 64) && (128 + cp mod 64 <=? 191)) with true by lia. reflexivity. }
  destruct (N.ltb_spec cp 65536).
  { cbn [hd tl app length]. unfold utf8_scan, second_ok, is_cont, in_range, peek0. cbn [hd tl].
    destruct (N.ltb_spec (224 + cp / 4096) 128); [lia|].
    replace ((194 <=? 224 + cp / 4096) && (224 + cp / 4096 <=? 223)) with false by lia.
    replace ((224 <=? 224 + cp / 4096) && (224 + cp / 4096 <=? 239)) with true by lia.
    replace ((128 <=? 128 + cp mod 64) && (128 + cp mod 64 <=? 191)) with true by lia.
    destruct H as [H|H]; bool_split; try reflexivity; lia. }
  { cbn [hd tl app length]. unfold utf8_scan, second_ok, is_cont, in_range, peek0. cbn [hd tl].
    destruct H as [H|H]; [lia|].
    destruct (N.ltb_spec (240 + cp / 262144) 128); [lia|].
    replace ((194 <=? 240 + cp / 262144) && (240 + cp / 262144 <=? 223)) with false by lia.
    replace ((224 <=? 240 + cp / 262144) && (240 + cp / 262144 <=? 239)) with false by lia.
    replace ((240 <=? 240 + cp / 262144) && (240 + cp / 262144 <=? 244)) with true by lia.
    replace ((128 <=? 128 + cp mod 64) && (128 + cp mod 64 <=? 191)) with true by lia.
    replace ((128 <=? 128 + cp / 64 mod 64) && (128 + cp / 64 mod 64 <=? 191)) with true by lia.
    bool_split; try reflexivity; lia. }
Qed.

Lemma encode_hd cp : utf8_encode cp = hd 0 (utf8_encode cp) :: tl (utf8_encode cp).
Proof. unfold utf8_encode. bool_split; reflexivity. Qed.

Lemma encode_length cp : (1 <= length (utf8_encode cp) <= 4)%nat.
Proof. unfold utf8_encode. bool_split; cbn; lia. Qed.

Lemma scan_true b rest n : utf8_scan b rest = (true, n) ->
  exists cp, scalar cp /\ utf8_encode cp = firstn n (b :: rest) /\ (n <= length (b :: rest))%nat.
Proof.
  unfold utf8_scan, second_ok, is_cont, in_range, peek0. intros H.
  destruct (N.ltb_spec b 128).
  { inversion H; subst. exists b. unfold scalar, utf8_encode.
    destruct (N.ltb_spec b 128); [|lia]. cbn. split; [lia|]. split; [reflexivity|lia]. }
  destruct ((194 <=? b) && (b <=? 223)) eqn:E2.
  { destruct rest as [|b1 rest]; cbn [hd] in H; [discriminate|].
    destruct ((128 <=? b1) && (b1 <=? 191)) eqn:E3; inversion H; subst.
    exists ((b - 192) * 64 + (b1 - 128)). cbn [firstn length]. unfold scalar, utf8_encode.
    destruct (N.ltb_spec ((b - 192) * 64 + (b1 - 128)) 128); [lia|].
    destruct (N.ltb_spec ((b - 192) * 64 + (b1 - 128)) 2048); [|lia].
    split; [lia|]. split; [|lia].
    assert (E4 : 192 + ((b - 192) * 64 + (b1 - 128)) / 64 = b) by lia.
    assert (E5 : 128 + ((b - 192) * 64 + (b1 - 128)) mod 64 = b1) by lia.
    rewrite E4, E5. reflexivity. }
  destruct ((224 <=? b) && (b <=? 239)) eqn:E4.
  { destruct rest as [|b1 rest]; cbn [hd tl] in H; [bool_split; try discriminate; try lia|].
    destruct rest as [|b2 rest]; cbn [hd tl] in H; [bool_split; try discriminate; try lia|].
    assert (Hn : n = 3%nat) by (clear - H; bool_split; congruence). subst n.
    exists ((b - 224) * 4096 + (b1 - 128) * 64 + (b2 - 128)). cbn [firstn length].
    assert (Hr : 128 <= b1 <= 191 /\ 128 <= b2 <= 191 /\
                 2048 <= (b - 224) * 4096 + (b1 - 128) * 64 + (b2 - 128) /\
                 scalar ((b - 224) * 4096 + (b1 - 128) * 64 + (b2 - 128))).
    { unfold scalar. bool_split; try discriminate; lia. }
    clear H. destruct Hr as [R1 [R2 [R3 R4]]]. split; [assumption|]. split; [|lia].
    unfold utf8_encode.
    destruct (N.ltb_spec ((b - 224) * 4096 + (b1 - 128) * 64 + (b2 - 128)) 128); [lia|].
    destruct (N.ltb_spec ((b - 224) * 4096 + (b1 - 128) * 64 + (b2 - 128)) 2048); [lia|].
    destruct (N.ltb_spec ((b - 224) * 4096 + (b1 - 128) * 64 + (b2 - 128)) 65536); [|lia].
    set (x := (b - 224) * 4096 + (b1 - 128) * 64 + (b2 - 128)) in *.
    assert (X1 : 224 + x / 4096 = b) by lia.
    assert (X2 : 128 + x / 64 mod 64 = b1) by lia.
    assert (X3 : 128 + x mod 64 = b2) by lia.
    rewrite X1, X2, X3. reflexivity. }
  destruct ((240 <=? b) && (b <=? 244)) eqn:E5; [|discriminate].
  destruct rest as [|b1 rest]; cbn [hd tl] in H; [bool_split; try discriminate; try lia|].
  destruct rest as [|b2 rest]; cbn [hd tl] in H; [bool_split; try discriminate; try lia|].
  destruct rest as [|b3 rest]; cbn [hd tl] in H; [bool_split; try discriminate; try lia|].
  assert (Hn : n = 4%nat) by (clear - H; bool_split; congruence). subst n.
  exists ((b - 240) * 262144 + (b1 - 128) * 4096 + (b2 - 128) * 64 + (b3 - 128)). cbn [firstn length].
  set (x := (b - 240) * 262144 + (b1 - 128) * 4096 + (b2 - 128) * 64 + (b3 - 128)) in *.
  assert (Hr : 128 <= b1 <= 191 /\ 128 <= b2 <= 191 /\ 128 <= b3 <= 191 /\ 65536 <= x /\ x < 1114112).
  { bool_split; try discriminate; lia. }
  clear H. destruct Hr as [R1 [R2 [R3 [R4 R5]]]]. split; [unfold scalar; lia|]. split; [|lia].
  unfold utf8_encode.
  destruct (N.ltb_spec x 128); [lia|]. destruct (N.ltb_spec x 2048); [lia|].
  destruct (N.ltb_spec x 65536); [lia|].
  assert (X1 : 240 + x / 262144 = b) by lia.
  assert (X2 : 128 + x / 4096 mod 64 = b1) by lia.
  assert (X3 : 128 + x / 64 mod 64 = b2) by lia.
  assert (X4 : 128 + x mod 64 = b3) by lia.
  rewrite X1, X2, X3, X4. reflexivity.
Qed.

(** ** Validation *)
Lemma valid_fuel_text f : forall l, utf8_valid_fuel f l = true -> is_text l.
Proof.
  induction f; intros [|b rest]; cbn [utf8_valid_fuel]; try discriminate.
  - exists []. auto.
  - exists []. auto.
  - destruct (utf8_scan b rest) as [[] n] eqn:E; [|discriminate]. intros H.
    apply IHf in H as [cps [H1 H2]]. apply scan_true in E as [cp [S1 [S2 S3]]].
    exists (cp :: cps). split; [constructor; assumption|]. cbn [flat_map].
    rewrite S2, <- H2. symmetry. apply firstn_skipn.
Qed.

Lemma text_valid_fuel cps : Forall scalar cps -> forall f,
  (length (flat_map utf8_encode cps) <= f)%nat -> utf8_valid_fuel f (flat_map utf8_encode cps) = true.
Proof.
  induction 1 as [|cp cps Hcp Hcps IH]; intros f Hf; cbn [flat_map].
  - destruct f; reflexivity.
  - cbn [flat_map] in Hf. rewrite app_length in Hf. pose proof (encode_length cp).
    destruct f as [|f]; [lia|].
    pose proof (scan_encode cp (flat_map utf8_encode cps) Hcp) as S.
    rewrite (encode_hd cp). cbn [app utf8_valid_fuel]. rewrite S.
    change (hd 0 (utf8_encode cp) :: tl (utf8_encode cp) ++ flat_map utf8_encode cps)
      with ((hd 0 (utf8_encode cp) :: tl (utf8_encode cp)) ++ flat_map utf8_encode cps).
    rewrite <- encode_hd, skipn_app, skipn_all, Nat.sub_diag. cbn [app skipn].
    apply IH. lia.
Qed.

Lemma utf8_valid_iff l : utf8_valid l = true <-> is_text l.
Proof.
  split; [apply valid_fuel_text|]. intros [cps [H ->]]. apply text_valid_fuel; auto.
Qed.

(** ** Lossy conversion *)
Lemma lossy_text_fuel cps : Forall scalar cps -> forall f,
  (length (flat_map utf8_encode cps) <= f)%nat ->
  utf8_lossy_fuel f (flat_map utf8_encode cps) = flat_map utf8_encode cps.
Proof.
  induction 1 as [|cp cps Hcp Hcps IH]; intros f Hf; cbn [flat_map].
  - destruct f; reflexivity.
  - cbn [flat_map] in Hf. rewrite app_length in Hf. pose proof (encode_length cp).
    destruct f as [|f]; [lia|].
    pose proof (scan_encode cp (flat_map utf8_encode cps) Hcp) as S.
    rewrite (encode_hd cp). cbn [app utf8_lossy_fuel]. rewrite S.
    change (hd 0 (utf8_encode cp) :: tl (utf8_encode cp) ++ flat_map utf8_encode cps)
      with ((hd 0 (utf8_encode cp) :: tl (utf8_encode cp)) ++ flat_map utf8_encode cps).
    rewrite <- encode_hd, skipn_app, skipn_all, Nat.sub_diag. cbn [app skipn].
    rewrite firstn_app, firstn_all, Nat.sub_diag. cbn [firstn]. rewrite app_nil_r.
    rewrite IH by lia. reflexivity.
Qed.

Lemma utf8_lossy_id l : utf8_valid l = true -> utf8_lossy l = l.
Proof. rewrite utf8_valid_iff. intros [cps [H ->]]. apply lossy_text_fuel; auto. Qed.

Lemma text_app a b : is_text a -> is_text b -> is_text (a ++ b).
Proof.
  intros [x [H1 ->]] [y [H2 ->]]. exists (x ++ y). split; [apply Forall_app; auto|].
  rewrite flat_map_app. reflexivity.
Qed.

Lemma replacement_text : is_text replacement.
Proof. exists [65533]. split; [constructor; [unfold scalar; lia|constructor]|]. reflexivity. Qed.

Lemma lossy_fuel_text f : forall l, is_text (utf8_lossy_fuel f l).
Proof.
  induction f; intros [|b rest]; cbn [utf8_lossy_fuel]; try (exists []; auto; fail).
  destruct (utf8_scan b rest) as [[] n] eqn:E.
  - apply text_app; [|apply IHf]. apply scan_true in E as [cp [S1 [S2 S3]]].
    exists [cp]. split; [auto|]. cbn [flat_map]. rewrite app_nil_r. auto.
  - apply text_app; [apply replacement_text|apply IHf].
Qed.

(** Whatever the bytes, the lossy conversion yields text. *)
Lemma utf8_lossy_text l : is_text (utf8_lossy l).
Proof. apply lossy_fuel_text. Qed.

Lemma utf8_lossy_valid l : utf8_valid (utf8_lossy l) = true.
Proof. apply utf8_valid_iff, utf8_lossy_text. Qed.

(** The fuel of the model is enough: more of it changes nothing. *)
Lemma lossy_fuel_enough f : forall f' l, (length l <= f)%nat -> (f <= f')%nat ->
  utf8_lossy_fuel f' l = utf8_lossy_fuel f l.
Proof.
  induction f; intros f' [|b rest] Hl Hf; cbn [length] in Hl; try lia;
    destruct f'; try lia; try reflexivity.
  cbn [utf8_lossy_fuel]. pose proof (scan_bounds b rest) as HB.
  destruct (utf8_scan b rest) as [[] n]; f_equal; apply IHf; try lia;
    rewrite skipn_length; cbn [length]; lia.
Qed.

Lemma valid_fuel_enough f : forall f' l, (length l <= f)%nat -> (f <= f')%nat ->
  utf8_valid_fuel f' l = utf8_valid_fuel f l.
Proof.
  induction f; intros f' [|b rest] Hl Hf; cbn [length] in Hl; try lia;
    destruct f'; try lia; try reflexivity.
  cbn [utf8_valid_fuel]. pose proof (scan_bounds b rest) as HB.
  destruct (utf8_scan b rest) as [[] n]; [|reflexivity]. apply IHf; try lia;
    rewrite skipn_length; cbn [length]; lia.
Qed.

(** The conversion copies text and replaces what is not text: appending it after text commutes. *)
Lemma lossy_app_text a b : is_text a -> utf8_lossy (a ++ b) = a ++ utf8_lossy b.
Proof.
  intros [cps [H ->]]. unfold utf8_lossy.
  assert (G : forall f, (length (flat_map utf8_encode cps ++ b) <= f)%nat ->
    utf8_lossy_fuel f (flat_map utf8_encode cps ++ b) = flat_map utf8_encode cps ++ utf8_lossy_fuel (length b) b).
  { induction H as [|cp cps Hcp Hcps IH]; intros f Hf; cbn [flat_map app] in *.
    - apply lossy_fuel_enough; lia.
    - rewrite <- !app_assoc in *. rewrite app_length in Hf. pose proof (encode_length cp).
      destruct f as [|f]; [lia|].
      pose proof (scan_encode cp (flat_map utf8_encode cps ++ b) Hcp) as S.
      rewrite (encode_hd cp) at 1. cbn [app utf8_lossy_fuel]. rewrite S.
      change (hd 0 (utf8_encode cp) :: tl (utf8_encode cp) ++ flat_map utf8_encode cps ++ b)
        with ((hd 0 (utf8_encode cp) :: tl (utf8_encode cp)) ++ flat_map utf8_encode cps ++ b).
      rewrite <- encode_hd, skipn_app, skipn_all, Nat.sub_diag. cbn [app skipn].
      rewrite firstn_app, firstn_all, Nat.sub_diag. cbn [firstn]. rewrite app_nil_r.
      rewrite IH by lia. reflexivity. }
  apply G. lia.
Qed.
