(** * Addresses from texts: the parser of the standard library and the grammars *)
From Coq Require Import Lia ZifyBool ZifyNat ZifyN.
From Verif Require Import Base BaseFacts Buffer AddrText AddrSpec.

Definition digits (radix : N) (s : bytes) (ds : list N) : Prop := Forall2 (fun b d => to_digit radix b = Some d) s ds.
Definition value (radix : N) (ds : list N) (acc : N) : N := fold_left (fun n d => n * radix + d) ds acc.
Definition ends (radix : N) (r : bytes) : Prop := match r with [] => True | b :: _ => to_digit radix b = None end.

Lemma digits_sound radix max : forall s acc c n c' r, read_digits radix max acc c s = Some (n, c', r) ->
  exists u ds, s = u ++ r /\ digits radix u ds /\ n = value radix ds acc /\ c' = (c + length u)%nat /\ ends radix r /\ (u <> [] -> c' <= max)%nat.
Proof.
  induction s as [|b s IH]; intros acc c n c' r E; cbn [read_digits] in E.
  - injection E as <- <- <-. exists [], []. split; [reflexivity|]. split; [constructor|]. split; [reflexivity|]. cbn. split; [lia|]. split; [exact I|congruence].
  - destruct (to_digit radix b) as [d|] eqn:D.
    + destruct (max <? S c)%nat eqn:M; [discriminate|]. apply IH in E. destruct E as (u & ds & -> & U & -> & -> & R & L).
      exists (b :: u), (d :: ds). split; [reflexivity|]. split; [constructor; auto|]. split; [reflexivity|]. cbn [length]. split; [lia|]. split; [assumption|].
      intros _. destruct u; cbn in *; [lia|]. specialize (L ltac:(discriminate)). lia.
    + injection E as <- <- <-. exists [], []. split; [reflexivity|]. split; [constructor|]. split; [reflexivity|]. cbn. split; [lia|]. split; [assumption|congruence].
Qed.
Lemma digits_complete radix max r : ends radix r -> forall u ds acc c, digits radix u ds -> (c + length u <= max)%nat ->
  read_digits radix max acc c (u ++ r) = Some (value radix ds acc, (c + length u)%nat, r).
Proof.
  intros R. induction u as [|b u IH]; intros ds acc c U L; inversion U as [|? d ? ds' D U']; subst.
  - cbn. rewrite Nat.add_0_r. destruct r as [|b r]; cbn in *; [reflexivity|]. now rewrite R.
  - cbn [app read_digits length] in *. rewrite D. destruct (max <? S c)%nat eqn:M; [lia|]. rewrite (IH ds') by (auto; lia). cbn.
    repeat f_equal. lia.
Qed.

(** ** One number *)
Lemma ten b d : to_digit 10 b = Some d <-> 48 <= b <= 57 /\ d = b - 48.
Proof.
  unfold to_digit. destruct ((48 <=? b) && (b <=? 57)) eqn:E1.
  - destruct (b - 48 <? 10) eqn:L; split; intros H; try (injection H as <-); try lia; try discriminate. f_equal. lia.
  - split; [|lia]. intros H. exfalso. revert H.
    destruct ((97 <=? b) && (b <=? 122)) eqn:E2; [|destruct ((65 <=? b) && (b <=? 90)) eqn:E3];
      match goal with |- (if ?c then _ else _) = _ -> _ => destruct c eqn:L end; intros; try discriminate; lia.
Qed.
Lemma sixteen b d : to_digit 16 b = Some d <-> hex_digit b d.
Proof.
  unfold to_digit, hex_digit. destruct ((48 <=? b) && (b <=? 57)) eqn:E1; [|destruct ((97 <=? b) && (b <=? 122)) eqn:E2; [|destruct ((65 <=? b) && (b <=? 90)) eqn:E3]];
    match goal with |- (if ?c then _ else _) = _ <-> _ => destruct c eqn:L end; split; intros H;
    try (injection H as <-); try discriminate; try lia; try (f_equal; lia).
Qed.
Lemma digits_ten s ds : digits 10 s ds <-> Forall (fun b => 48 <= b <= 57) s /\ ds = map (fun b => b - 48) s.
Proof.
  revert ds. induction s as [|b s IH]; intros ds; split.
  - intros H. inversion H. auto.
  - intros [_ ->]. constructor.
  - intros H. inversion H as [|? ? ? ? D U]; subst. apply ten in D. apply IH in U. destruct U as [U ->]. destruct D as [D ->]. auto.
  - intros [H ->]. inversion H; subst. constructor; [now apply ten|]. apply IH. auto.
Qed.
Lemma value_ten s acc : value 10 (map (fun b => b - 48) s) acc = fold_left (fun n b => 10 * n + (b - 48)) s acc.
Proof. revert acc. induction s as [|b s IH]; intros acc; cbn [map value fold_left]; [reflexivity|]. fold (value 10 (map (fun b => b - 48) s) (acc * 10 + (b - 48))). rewrite IH. do 2 f_equal. lia. Qed.
Lemma value_sixteen ds acc : value 16 ds acc = fold_left (fun n d => 16 * n + d) ds acc.
Proof. revert acc. induction ds as [|d ds IH]; intros acc; cbn [value fold_left]; [reflexivity|]. fold (value 16 ds (acc * 16 + d)). rewrite IH. do 2 f_equal. lia. Qed.
Lemma value_grows s acc : acc <= fold_left (fun n b => 10 * n + (b - 48)) s acc.
Proof. revert acc. induction s as [|b s IH]; intros acc; cbn [fold_left]; [lia|]. specialize (IH (10 * acc + (b - 48))). lia. Qed.
Lemma octet_short s n : octet_text s n -> (1 <= length s <= 3)%nat.
Proof.
  intros (H0 & H1 & H2 & H3 & H4). destruct s as [|a [|b [|c [|d s]]]]; cbn [length]; try lia; [congruence|]. exfalso.
  inversion H1; subst. cbn [hd fold_left] in *. assert (a <> 48) by (intros ->; now specialize (H2 eq_refl)).
  pose proof (value_grows s (10 * (10 * (10 * (10 * 0 + (a - 48)) + (b - 48)) + (c - 48)) + (d - 48))). lia.
Qed.
Lemma octet_read s n r : ends 10 r -> octet_text s n -> read_number 10 3 false 256 (s ++ r) = Some (n, r).
Proof.
  intros R H. pose proof (octet_short _ _ H) as L. destruct H as (H0 & H1 & H2 & H3 & H4). unfold read_number.
  rewrite (digits_complete 10 3 r R s (map (fun b => b - 48) s) 0 0) by (try apply digits_ten; auto; cbn; lia).
  rewrite value_ten, <- H3. cbn [negb andb Nat.add]. destruct (length s =? 0)%nat eqn:E; [lia|].
  replace (match s ++ r with [] => false | b :: _ => b =? 48 end && (1 <? length s)%nat) with false.
  2:{ destruct s as [|a s]; [congruence|]. cbn [app hd] in *. destruct (a =? 48) eqn:A; [|reflexivity].
      apply N.eqb_eq in A. specialize (H2 A). injection H2 as -> ->. reflexivity. }
  destruct (n <? 256) eqn:B; [reflexivity|lia].
Qed.
Lemma octet_sound s n r : read_number 10 3 false 256 s = Some (n, r) -> exists u, s = u ++ r /\ octet_text u n /\ ends 10 r.
Proof.
  unfold read_number. destruct (read_digits 10 3 0 0 s) as [[[m c] r']|] eqn:E; [|discriminate].
  apply digits_sound in E. destruct E as (u & ds & -> & U & -> & -> & R & _). apply digits_ten in U. destruct U as [U ->]. rewrite value_ten.
  cbn [negb andb Nat.add]. destruct (length u =? 0)%nat eqn:L; [discriminate|].
  destruct (match u ++ r' with [] => false | b :: _ => b =? 48 end && (1 <? length u)%nat) eqn:Z; [discriminate|].
  destruct (_ <? 256) eqn:B; [|discriminate]. intros H. injection H as <- <-. exists u. split; [reflexivity|]. split; [|assumption].
  split; [intros ->; cbn in L; congruence|]. split; [assumption|]. split; [|split; [reflexivity|apply N.ltb_lt in B; apply N.lt_succ_r; exact B]].
  destruct u as [|a [|b u]]; cbn [hd app length] in *; [lia| |]; intros ->; [reflexivity|]. now cbn in Z.
Qed.
Lemma group_read s n r : ends 16 r -> group_text s n -> read_number 16 4 true 65536 (s ++ r) = Some (n, r).
Proof.
  intros R (L & ds & D & ->). unfold read_number.
  assert (D' : digits 16 s ds) by (clear L; induction D; constructor; auto; now apply sixteen).
  rewrite (digits_complete 16 4 r R s ds 0 0 D') by (cbn; lia). rewrite value_sixteen. cbn [negb andb Nat.add].
  destruct (length s =? 0)%nat eqn:E; [lia|].
  assert (B : Forall (fun d => d < 16) ds) by (clear - D; induction D as [|? ? ? ? H]; constructor; auto; destruct H as [H|[H|H]]; lia).
  assert (LE : length s = length ds) by (clear - D; induction D; cbn; congruence). rewrite LE in L. clear D D' LE E.
  replace (_ <? 65536) with true; [reflexivity|]. symmetry. apply N.ltb_lt.
  rewrite Forall_forall in B.
  destruct ds as [|a [|b [|c [|d [|e ds]]]]]; cbn [length fold_left] in *; try lia;
    try pose proof (B a ltac:(cbn; auto)); try pose proof (B b ltac:(cbn; auto)); try pose proof (B c ltac:(cbn; auto)); try pose proof (B d ltac:(cbn; auto)); lia.
Qed.
Lemma group_sound s n r : read_number 16 4 true 65536 s = Some (n, r) -> exists u, s = u ++ r /\ group_text u n /\ ends 16 r.
Proof.
  unfold read_number. destruct (read_digits 16 4 0 0 s) as [[[m c] r']|] eqn:E; [|discriminate].
  apply digits_sound in E. destruct E as (u & ds & -> & U & -> & -> & R & L). rewrite value_sixteen. cbn [negb andb Nat.add] in *.
  destruct (length u =? 0)%nat eqn:Z; [discriminate|]. destruct (_ <? 65536); [|discriminate]. intros H. injection H as <- <-.
  exists u. split; [reflexivity|]. split; [|assumption]. split; [specialize (L ltac:(now destruct u)); lia|].
  exists ds. split; [|reflexivity]. clear - U. induction U; constructor; auto; now apply sixteen.
Qed.

(** ** IPv4 *)
Lemma dot_ends r : ends 10 (46 :: r). Proof. reflexivity. Qed.
Lemma ipv4_read s os r : ends 10 r -> dotted s os -> read_ipv4 (s ++ r) = Some (os, r).
Proof.
  intros R (p & q & t & u & a & b & c & d & -> & -> & P & Q & T & U). unfold read_ipv4. rewrite <- !app_assoc.
  cbn [read_octets read_separator app]. rewrite (octet_read p a _ (dot_ends _) P). cbn [read_octets read_separator read_char app N.eqb Pos.eqb].
  rewrite (octet_read q b _ (dot_ends _) Q). cbn [read_octets read_separator read_char app N.eqb Pos.eqb].
  rewrite (octet_read t c _ (dot_ends _) T). cbn [read_octets read_separator read_char app N.eqb Pos.eqb].
  rewrite (octet_read u d _ R U). reflexivity.
Qed.
Lemma separated i s n r : read_separator 46 (S i) (read_number 10 3 false 256) s = Some (n, r) -> exists u, s = 46 :: u ++ r /\ octet_text u n /\ ends 10 r.
Proof.
  cbn. destruct s as [|b s]; cbn; [discriminate|]. destruct (b =? 46) eqn:B; [|discriminate]. intros H. apply octet_sound in H.
  destruct H as (u & -> & U & R). exists u. replace b with 46 by lia. auto.
Qed.
Lemma ipv4_sound s os r : read_ipv4 s = Some (os, r) -> exists u, s = u ++ r /\ dotted u os /\ ends 10 r.
Proof.
  unfold read_ipv4. cbn [read_octets].
  destruct (read_separator 46 0 _ s) as [[a s1]|] eqn:E1; [|discriminate].
  destruct (read_separator 46 1 _ s1) as [[b s2]|] eqn:E2; [|discriminate].
  destruct (read_separator 46 2 _ s2) as [[c s3]|] eqn:E3; [|discriminate].
  destruct (read_separator 46 3 _ s3) as [[d s4]|] eqn:E4; [|discriminate].
  intros H. injection H as <- <-. cbn in E1. apply octet_sound in E1. apply separated in E2, E3, E4.
  destruct E1 as (p & -> & P & _), E2 as (q & -> & Q & _), E3 as (t & -> & T & _), E4 as (u & -> & U & R).
  exists (p ++ [46] ++ q ++ [46] ++ t ++ [46] ++ u). split; [repeat (rewrite <- ?app_assoc; cbn [app]); reflexivity|].
  split; [|assumption]. exists p, q, t, u, a, b, c, d. auto 10.
Qed.
Lemma dotted_facts s os : dotted s os -> (length s <= 15)%nat /\ length os = 4%nat /\ Forall (fun o => o < 256) os.
Proof.
  intros (p & q & t & u & a & b & c & d & -> & -> & P & Q & T & U).
  pose proof (octet_short _ _ P); pose proof (octet_short _ _ Q); pose proof (octet_short _ _ T); pose proof (octet_short _ _ U).
  rewrite !app_length. cbn [length]. repeat split; try lia.
  destruct P as (_ & _ & _ & _ & ?), Q as (_ & _ & _ & _ & ?), T as (_ & _ & _ & _ & ?), U as (_ & _ & _ & _ & ?). repeat constructor; lia.
Qed.

(** ** IPv6 *)
Definition stop (r : bytes) : Prop := r = [] \/ exists t, r = 58 :: 58 :: t.
Definition colon (r : bytes) : Prop := r = [] \/ exists t, r = 58 :: t.
Lemma colon_ends radix r : (radix <= 36) -> colon r -> ends radix r.
Proof. intros L [->|(t & ->)]; cbn [ends]; [exact I|]. unfold to_digit. cbn [N.leb N.compare Pos.compare Pos.compare_cont andb]. destruct (36 <? radix) eqn:E; [lia|reflexivity]. Qed.
Lemma stop_colon r : stop r -> colon r. Proof. intros [->|(t & ->)]; [left|right]; eauto. Qed.
Lemma no_ipv4 s n r : group_text s n -> colon r -> read_ipv4 (s ++ r) = None.
Proof.
  intros (_ & ds & D & _) C. unfold read_ipv4. cbn [read_octets read_separator].
  destruct (read_number 10 3 false 256 (s ++ r)) as [[m r1]|] eqn:E; [|reflexivity]. apply octet_sound in E. destruct E as (u & E & U & R1).
  destruct (read_char 46 r1) as [r2|] eqn:E2; [|reflexivity]. exfalso.
  destruct r1 as [|b r1]; [discriminate|]. cbn in E2. destruct (b =? 46) eqn:B; [|discriminate]. apply N.eqb_eq in B. subst b. clear E2 R1.
  destruct U as (_ & U & _). revert u E U. induction D as [|x y s ds X D IH]; intros u E U; cbn in E.
  - destruct C as [->|(t & ->)]; destruct u as [|v u]; cbn in E; try discriminate. injection E as <- _. inversion U. lia.
  - destruct u as [|v u]; cbn in E.
    + injection E as -> _. destruct X as [X|[X|X]]; lia.
    + injection E as _ E. inversion U. eapply IH; eauto.
Qed.
Definition before (i : nat) (s : bytes) : bytes := match i with O => s | S _ => 58 :: s end.
Lemma sep_before {A} i (f : bytes -> option (A * bytes)) s : read_separator 58 i f (before i s) = f s.
Proof. destruct i; reflexivity. Qed.
Lemma groups_stop k i r : stop r -> read_groups k (S i) r = ([], false, r).
Proof.
  intros R. destruct k as [|k]; [reflexivity|]. cbn [read_groups read_separator].
  destruct R as [->|(t & ->)]; cbn [read_char N.eqb Pos.eqb]; destruct (0 <? k)%nat; reflexivity.
Qed.
Lemma groups_read s l : groups_text s l -> forall k i r, stop r -> (length l <= k)%nat -> read_groups k i (before i (s ++ r)) = (l, false, r).
Proof.
  induction 1 as [s n G|s n t l G _ IH]; intros k i r R L; (destruct k as [|k]; cbn [length] in L; [lia|]); cbn [read_groups]; rewrite !sep_before.
  - rewrite (no_ipv4 _ _ _ G (stop_colon _ R)), (group_read s n r) by first [assumption|apply colon_ends; [lia|now apply stop_colon]].
    rewrite groups_stop by assumption. destruct (0 <? k)%nat; reflexivity.
  - rewrite <- !app_assoc. assert (C : colon ([58] ++ t ++ r)) by (right; eexists; reflexivity).
    rewrite (no_ipv4 _ _ _ G C), (group_read s n _) by first [assumption|apply colon_ends; [lia|assumption]].
    change ([58] ++ t ++ r) with (before (S i) (t ++ r)). rewrite IH by (auto; lia). destruct (0 <? k)%nat; reflexivity.
Qed.
Lemma end_read s l : end_text s l -> forall k i, (length l <= k)%nat -> exists v4, read_groups k i (before i s) = (l, v4, []).
Proof.
  induction 1 as [s n G|s a b c d G|s n t l G _ IH]; intros k i L.
  - exists false. pose proof (groups_read s [n] (gt_one _ _ G) k i [] (or_introl eq_refl) L) as H. now rewrite app_nil_r in H.
  - exists true. destruct k as [|[|k]]; cbn [length] in L; [lia|lia|]. cbn [read_groups Nat.ltb Nat.leb]. rewrite sep_before.
    pose proof (ipv4_read s _ [] I G) as H. rewrite app_nil_r in H. rewrite H. cbn [nth]. rewrite (N.mul_comm a), (N.mul_comm c). reflexivity.
  - destruct k as [|k]; cbn [length] in L; [lia|]. cbn [read_groups]. rewrite !sep_before.
    assert (C : colon ([58] ++ t)) by (right; eexists; reflexivity).
    rewrite (no_ipv4 _ _ _ G C), (group_read s n _) by first [assumption|apply colon_ends; [lia|assumption]].
    destruct (IH k (S i)) as (v4 & H); [lia|]. change ([58] ++ t) with (before (S i) t). rewrite H. exists v4. destruct (0 <? k)%nat; reflexivity.
Qed.
Lemma groups_end s l : groups_text s l -> end_text s l.
Proof. induction 1; constructor; auto. Qed.
Lemma sep_inv {A} i (f : bytes -> option (A * bytes)) s x : read_separator 58 i f s = Some x -> exists s', s = before i s' /\ f s' = Some x.
Proof.
  destruct i; cbn; [eauto|]. destruct s as [|b s]; cbn; [discriminate|]. destruct (b =? 58) eqn:B; [|discriminate].
  intros H. exists s. replace b with 58 by lia. auto.
Qed.
Lemma before_app i u r : before i (u ++ r) = before i u ++ r. Proof. destruct i; reflexivity. Qed.
Lemma groups_sound : forall k i s l v4 r, read_groups k i s = (l, v4, r) -> (length l <= k)%nat
  /\ ((l = [] /\ v4 = false /\ r = s) \/ exists u, s = before i (u ++ r) /\ if v4 then end_text u l else groups_text u l).
Proof.
  induction k as [|k IH]; intros i s l v4 r; cbn [read_groups].
  - intros H. injection H as <- <- <-. cbn. auto.
  - destruct (if (0 <? k)%nat then _ else _) as [[o r0]|] eqn:E.
    + destruct (0 <? k)%nat eqn:K; [|discriminate]. intros H. injection H as <- <- <-. split; [cbn; lia|]. right.
      apply sep_inv in E. destruct E as (s' & -> & E). apply ipv4_sound in E. destruct E as (u & -> & U & _). exists u. split; [reflexivity|].
      pose proof U as (p & q & t & w & a & b & c & d & _ & -> & _). cbn [nth]. rewrite (N.mul_comm a), (N.mul_comm c). now constructor.
    + clear E. destruct (read_separator 58 i _ s) as [[g r0]|] eqn:E.
      * apply sep_inv in E. destruct E as (s' & -> & E). apply group_sound in E. destruct E as (u & -> & U & _).
        destruct (read_groups k (S i) r0) as [[l' v'] r'] eqn:F. intros H. injection H as <- <- <-.
        apply IH in F. destruct F as (L & [(-> & -> & ->)|(w & -> & W)]); (split; [cbn; lia|]); right.
        -- exists u. split; [reflexivity|]. now constructor.
        -- exists (u ++ [58] ++ w). split; [now rewrite <- !app_assoc|]. destruct v'; now constructor.
      * intros H. injection H as <- <- <-. split; [cbn; lia|]. auto.
Qed.
Lemma char_inv x s r : read_char x s = Some r -> s = x :: r.
Proof. destruct s as [|b s]; cbn; [discriminate|]. destruct (b =? x) eqn:B; [|discriminate]. intros H. injection H as <-. f_equal. lia. Qed.
Lemma ipv6_iff s gs : read_ipv6 s = Some (gs, []) <-> rfc4291_text s gs.
Proof.
  unfold read_ipv6, rfc4291_text. split.
  - destruct (read_groups 8 0 s) as [[h v4] r] eqn:H. apply groups_sound in H. destruct H as (LH & H). cbn [before] in H.
    destruct (length h =? 8)%nat eqn:E8.
    + intros E. injection E as <- ->. left. split; [|lia]. destruct H as [(-> & _)|(u & -> & U)]; [cbn in E8; lia|]. rewrite app_nil_r.
      destruct v4; [assumption|now apply groups_end].
    + destruct v4; [discriminate|].
      destruct (read_char 58 r) as [r1|] eqn:E1; [|discriminate]. destruct (read_char 58 r1) as [r2|] eqn:E2; [|discriminate].
      apply char_inv in E1, E2. subst r r1. destruct (read_groups (8 - (length h + 1)) 0 r2) as [[t w] r3] eqn:T. intros E. injection E as <- ->.
      apply groups_sound in T. destruct T as (LT & T). cbn [before] in T. right.
      destruct H as [(-> & _ & <-)|(u & -> & U)].
      * exists [], r2, [], t. cbn [length app] in *. repeat split; [left; auto| |lia].
        destruct T as [(-> & _ & <-)|(x & -> & X)]; [left; auto|right]. rewrite app_nil_r. destruct w; [assumption|now apply groups_end].
      * exists u, r2, h, t. repeat split; [right; assumption| |lia].
        destruct T as [(-> & _ & <-)|(x & -> & X)]; [left; auto|right]. rewrite app_nil_r. destruct w; [assumption|now apply groups_end].
  - intros [(E & L)|(h & t & hs & ts & -> & H & T & L & ->)].
    + destruct (end_read s gs E 8 0) as (v4 & R); [lia|]. cbn [before] in R. rewrite R. now rewrite L.
    + assert (R : read_groups 8 0 (h ++ [58; 58] ++ t) = (hs, false, [58; 58] ++ t)).
      { destruct H as [(-> & ->)|H]; [reflexivity|]. apply (groups_read h hs H 8 0); [right; eexists; reflexivity|lia]. }
      rewrite R. destruct (length hs =? 8)%nat eqn:E; [lia|]. cbn [app read_char N.eqb Pos.eqb].
      assert (R2 : exists w, read_groups (8 - (length hs + 1)) 0 t = (ts, w, [])).
      { destruct T as [(-> & ->)|T]; [|apply (end_read t ts T _ 0); lia]. exists false. destruct (8 - (length hs + 1))%nat as [|[|k]]; reflexivity. }
      destruct R2 as (w & ->). reflexivity.
Qed.
Lemma group_bound s n : group_text s n -> n < 65536.
Proof.
  intros H. pose proof (group_read s n [] I H) as R. unfold read_number in R. destruct (read_digits _ _ _ _ _) as [[[m c] r]|]; [|discriminate].
  destruct (c =? 0)%nat; [discriminate|]. cbn in R. destruct (m <? 65536) eqn:B; [|discriminate]. injection R as R _. lia.
Qed.
Lemma end_bound s l : end_text s l -> Forall (fun g => g < 65536) l.
Proof.
  induction 1 as [s n G|s a b c d G|s n t l G _ IH]; [|destruct (dotted_facts _ _ G) as (_ & _ & F)|]; repeat constructor; eauto using group_bound.
  all: inversion F as [|? ? ? F1]; subst; inversion F1 as [|? ? ? F2]; subst; inversion F2 as [|? ? ? F3]; subst; inversion F3; subst; lia.
Qed.
Lemma rfc4291_facts s gs : rfc4291_text s gs -> length gs = 8%nat /\ Forall (fun g => g < 65536) gs.
Proof.
  intros [(E & L)|(h & t & hs & ts & -> & H & T & L & ->)]; [eauto using end_bound|]. split.
  - rewrite !app_length, repeat_length. lia.
  - rewrite !Forall_app. repeat split.
    + destruct H as [(_ & ->)|H]; [constructor|]. eauto using end_bound, groups_end.
    + apply Forall_forall. intros x X. apply repeat_spec in X. subst. lia.
    + destruct T as [(_ & ->)|T]; [constructor|]. eauto using end_bound.
Qed.
