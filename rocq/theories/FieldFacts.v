(** * Facts about bitmaps, texts, options and parameters *)
From Coq Require Import Sorting.Permutation Sorting.Sorted Lia ZifyBool ZifyNat ZifyN.
From Verif Require Import Base Utf8 Buffer Fqdn Types RDataBasic Bitmap Svcb RDataSec RData BaseFacts Utf8Facts BufferFacts NameSpec FqdnLoop FqdnFacts BitmapFacts
  CodeSpec CodeFacts RDataSpec RDataReads RDataFacts ParseFacts WireSpec WireFacts SvcbParse FailSpec FailFacts FieldSpec.
Ltac Zify.zify_post_hook ::= Z.div_mod_to_equations.

(** ** A loop over entries reads exactly the entries that are there *)
Section Loop.
  Context {A X : Type} (d : bytes) (step : A -> P A) (entry : nat -> X -> nat -> Prop) (put : A -> X -> A).
  Hypothesis step_iff : forall a q v b, (q <= length d)%nat ->
    step a (mkbuf d q) = (Ok v, b) <-> exists x e, entry q x e /\ (q < e <= length d)%nat /\ v = put a x /\ b = mkbuf d e.
  Lemma while_iff : forall fuel a q v b, (q <= length d)%nat -> (length d - q <= fuel)%nat ->
    while_remaining fuel step a (mkbuf d q) = (Ok v, b) <->
    exists xs, consecutive entry q xs (length d) /\ v = fold_left put xs a /\ b = mkbuf d (length d).
  Proof.
    induction fuel as [|fuel IH]; intros a q v b L F; cbn [while_remaining]; unfold remaining; cbn [data pos];
      (destruct (Nat.eqb_spec (length d - q) 0) as [Z|NZ]; [assert (q = length d) by lia; subst q|]); try lia.
    1, 2: split; [intros E; injection E as <- <-; exists []; split; [constructor|]; split; reflexivity|];
      intros (xs & C & -> & ->); inversion C; subst; [reflexivity|];
      match goal with H : consecutive _ _ _ _ |- _ => apply consecutive_start in H end; lia.
    split.
    - intros E. apply bind_ok in E. destruct E as (a' & b1 & E1 & E). apply step_iff in E1; [|exact L].
      destruct E1 as (x & e & En & Le & -> & ->). apply IH in E; [|lia|lia]. destruct E as (xs & C & -> & ->).
      exists (x :: xs). split; [econstructor; [exact En|lia|exact C]|]. split; reflexivity.
    - intros (xs & C & -> & ->). inversion C as [|p x m ys e En Lm C']; subst; [lia|].
      pose proof (consecutive_start _ _ _ _ C') as Lm'.
      unfold bind. rewrite (proj2 (step_iff a q (put a x) (mkbuf d m) L)); [|exists x, m; repeat split; try assumption; lia].
      cbn [fold_left]. apply IH; [lia|lia|]. exists ys. split; [exact C'|]. split; reflexivity.
  Qed.
  Lemma loop_iff a q v b : (q <= length d)%nat -> loop_remaining step a (mkbuf d q) = (Ok v, b) <->
    exists xs, consecutive entry q xs (length d) /\ v = fold_left put xs a /\ b = mkbuf d (length d).
  Proof. intros L. unfold loop_remaining, remaining. cbn [data pos]. apply while_iff; [exact L|lia]. Qed.
End Loop.

(** ** Simple fields, both directions *)
Lemma Forall_nth_error {X} (Q : X -> Prop) l i x : Forall Q l -> nth_error l i = Some x -> Q x.
Proof. intros F E. rewrite Forall_forall in F. apply F, (nth_error_In _ _ E). Qed.
Lemma u8_iff d q v b : byte_list d -> extract_u8 (mkbuf d q) = (Ok v, b) <-> nth_error d q = Some v /\ b = mkbuf d (q + 1).
Proof.
  intros B. split.
  - intros E. apply u8_got in E; [|exact B]. tauto.
  - intros (E & ->). assert (L : (q < length d)%nat) by (apply nth_error_Some; congruence).
    unfold extract_u8, bind, extract_bytes. cbn [data pos]. destruct (Nat.ltb_spec (length d) (q + 1)); [lia|]. cbn [ret].
    do 2 f_equal. apply nth_error_split in E. destruct E as (l1 & l2 & -> & <-). change (v :: l2) with ([v] ++ l2). change 1%nat with (length [v]).
    rewrite slice_exact. reflexivity.
Qed.
Lemma bytes_iff d q n v b : extract_bytes n (mkbuf d q) = (Ok v, b) <-> (q + n <= length d)%nat /\ v = slice d q n /\ b = mkbuf d (q + n).
Proof.
  unfold extract_bytes. cbn [data pos]. destruct (Nat.ltb_spec (length d) (q + n)).
  - split; [discriminate|]. intros (L & _). lia.
  - split; [intros E; injection E as <- <-; auto|]. intros (_ & -> & ->). reflexivity.
Qed.
Lemma u16_iff d q v b : byte_list d -> extract_u16 (mkbuf d q) = (Ok v, b) <-> u16_at d q v /\ b = mkbuf d (q + 2).
Proof.
  intros B. split; [intros E; apply u16_got in E; tauto|]. intros (U & ->). apply u16_read, U.
Qed.
Lemma bind_iff {A B} (p : P A) (f : A -> P B) b v b' : bind p f b = (Ok v, b') <-> exists a b1, p b = (Ok a, b1) /\ f a b1 = (Ok v, b').
Proof. split; [apply bind_ok|]. intros (a & b1 & E & E'). unfold bind. rewrite E. exact E'. Qed.

(** ** Character strings and texts *)
Lemma char_string_iff d q v b : byte_list d -> extract_character_string (mkbuf d q) = (Ok v, b) <-> exists e, string_at d q v e /\ b = mkbuf d e.
Proof.
  intros B. unfold extract_character_string. rewrite bind_iff. split.
  - intros (n & b1 & E1 & E). apply u8_iff in E1; [|exact B]. destruct E1 as (E1 & ->). apply bytes_iff in E. destruct E as (L & -> & ->).
    eexists. split; [|reflexivity]. unfold string_at, octet_at. rewrite slice_length by exact L. rewrite N2Nat.id. auto.
  - intros (e & (O & L & S & ->) & ->). exists (N.of_nat (length v)), (mkbuf d (q + 1)). split; [apply u8_iff; [exact B|]; split; [exact O|reflexivity]|].
    rewrite Nat2N.id. apply bytes_iff. auto.
Qed.
Lemma string_iff d q v b : byte_list d -> extract_string (mkbuf d q) = (Ok v, b) <-> is_text v /\ exists e, string_at d q v e /\ b = mkbuf d e.
Proof.
  intros B. unfold extract_string. rewrite bind_iff, <- utf8_valid_iff. split.
  - intros (s & b1 & E1 & E). destruct (utf8_valid s) eqn:U; [|discriminate]. cbn [ret] in E. injection E as <- <-.
    split; [exact U|]. apply char_string_iff in E1; assumption.
  - intros (U & H). apply char_string_iff in H; [|exact B]. exists v, b. split; [exact H|]. rewrite U. reflexivity.
Qed.
Lemma string_at_end d q v e : string_at d q v e -> (q < e <= length d)%nat.
Proof. intros (_ & L & _ & ->). lia. Qed.
Lemma txt_iff d q l b : byte_list d -> (q <= length d)%nat -> txt_try_from (mkbuf d q) = (Ok l, b) <->
  exists raw, consecutive (string_at d) q raw (length d) /\ l = map utf8_lossy raw /\ b = mkbuf d (length d).
Proof.
  intros B L. unfold txt_try_from. rewrite (loop_iff d txt_step (string_at d) (fun acc s => acc ++ [utf8_lossy s])); [| |exact L].
  - assert (F : forall raw acc, fold_left (fun (acc : txt) s => acc ++ [utf8_lossy s]) raw acc = acc ++ map utf8_lossy raw).
    { induction raw as [|s raw IH]; intros acc; cbn [fold_left map]; [symmetry; apply app_nil_r|]. rewrite IH, <- app_assoc. reflexivity. }
    split; intros (raw & C & -> & ->); exists raw; (split; [exact C|]); (split; [|reflexivity]); rewrite F; reflexivity.
  - intros a p v b' Lp. unfold txt_step. split.
    + intros E. apply bind_iff in E. destruct E as (n & b1 & E1 & E). apply bind_iff in E. destruct E as (s & b2 & E2 & E). cbn [ret] in E. injection E as <- <-.
      assert (H : extract_character_string (mkbuf d p) = (Ok s, b2)) by (apply bind_iff; eauto). apply char_string_iff in H; [|exact B].
      destruct H as (e & S & ->). exists s, e. split; [exact S|]. split; [apply (string_at_end _ _ _ _ S)|auto].
    + intros (s & e & S & _ & -> & ->). assert (H : extract_character_string (mkbuf d p) = (Ok s, mkbuf d e)) by (apply char_string_iff; eauto).
      apply bind_iff in H. destruct H as (n & b1 & E1 & E2). apply bind_iff. exists n, b1. split; [exact E1|]. apply bind_iff. eauto.
Qed.
Lemma lossy_spec s : is_text (utf8_lossy s) /\ (is_text s -> utf8_lossy s = s).
Proof. split; [apply lossy_fuel_text|]. intros H. apply utf8_lossy_id. apply utf8_valid_iff, H. Qed.
Lemma caa_got d q x b : byte_list d -> (q <= length d)%nat -> caa_try_from (mkbuf d q) = (Ok x, b) ->
  exists flags raw e, nth_error d q = Some flags /\ string_at d (q + 1) raw e /\ raw <> [] /\
    caa_critical x = N.testbit flags 7 /\ caa_tag x = utf8_lossy raw /\ caa_value x = skipn e d.
Proof.
  intros B L E. unfold caa_try_from in E. apply bind_iff in E. destruct E as (f & b1 & E1 & E). apply u8_iff in E1; [|exact B]. destruct E1 as (Ef & ->).
  apply bind_iff in E. destruct E as (n & b1 & E1 & E). destruct (N.eqb_spec n 0) as [|NZ]; [discriminate|].
  apply bind_iff in E. destruct E as (t & b2 & E2 & E). apply bind_iff in E. destruct E as (v & b3 & E3 & E). cbn [ret] in E. injection E as <- _.
  assert (H : extract_character_string (mkbuf d (q + 1)) = (Ok t, b2)) by (apply bind_iff; eauto). apply char_string_iff in H; [|exact B].
  destruct H as (e & S & ->). exists f, t, e. split; [exact Ef|]. split; [exact S|]. cbn [caa_critical caa_tag caa_value]. split.
  - apply u8_iff in E1; [|exact B]. destruct E1 as (E1 & _). destruct S as (O & _). unfold octet_at in O. intros ->. cbn [length] in O. change (N.of_nat 0) with 0 in O. congruence.
  - split; [rewrite land_128, negb_involutive; reflexivity|]. split; [reflexivity|].
    apply string_at_end in S. unfold extract_rest in E3. apply bytes_iff in E3. destruct E3 as (_ & -> & _). unfold remaining, slice. cbn [data pos].
    rewrite <- skipn_length. apply firstn_all.
Qed.

(** ** EDNS options *)
Lemma option_at_end d q x e : option_at d q x e -> (q < e <= length d)%nat.
Proof. intros (_ & _ & L & _ & ->). lia. Qed.
Lemma opt_iff d q m b : byte_list d -> (q <= length d)%nat -> opt_try_from (mkbuf d q) = (Ok m, b) <->
  exists es, consecutive (option_at d) q es (length d) /\ m = fold_left (fun a x => opt_insert (fst x) (snd x) a) es [] /\ b = mkbuf d (length d).
Proof.
  intros B L. unfold opt_try_from. apply loop_iff; [|exact L]. intros a p v b' Lp. unfold opt_step. split.
  - intros E. apply bind_iff in E. destruct E as (k & b1 & E1 & E). apply u16_iff in E1; [|exact B]. destruct E1 as (U1 & ->).
    apply bind_iff in E. destruct E as (n & b1 & E1 & E). apply u16_iff in E1; [|exact B]. destruct E1 as (U2 & ->).
    apply bind_iff in E. destruct E as (s & b1 & E1 & E). apply bytes_iff in E1. destruct E1 as (L1 & -> & ->). cbn [ret] in E. injection E as <- <-.
    replace (p + 2 + 2)%nat with (p + 4)%nat in * by lia.
    exists (k, slice d (p + 4) (N.to_nat n)), (p + 4 + N.to_nat n)%nat. unfold option_at. cbn [fst snd]. rewrite slice_length by exact L1. rewrite N2Nat.id.
    split; [repeat split; try assumption|]. split; [lia|]. split; reflexivity.
  - intros ([k s] & e & (U1 & U2 & L1 & S & ->) & _ & -> & ->). cbn [fst snd] in *. apply bind_iff. exists k, (mkbuf d (p + 2)). split; [apply u16_iff; auto|].
    apply bind_iff. exists (N.of_nat (length s)), (mkbuf d (p + 2 + 2)). split; [apply u16_iff; auto|].
    replace (p + 2 + 2)%nat with (p + 4)%nat by lia. apply bind_iff. exists s, (mkbuf d (p + 4 + length s)). split; [|reflexivity].
    rewrite Nat2N.id. apply bytes_iff. auto.
Qed.
Lemma opt_insert_in k v m x : NoDup (map fst m) -> In x (opt_insert k v m) <-> x = (k, v) \/ In x m /\ fst x <> k.
Proof.
  induction m as [|[k' v'] m IH]; intros ND; cbn [opt_insert].
  - cbn [In]. intuition.
  - cbn [map fst] in ND. inversion ND as [|? ? NI ND']; subst. destruct (N.eqb_spec k k') as [->|NE].
    + cbn [In]. split.
      * intros [<-|I]; [auto|]. right. split; [auto|]. intros E. apply NI. rewrite <- E. apply in_map. exact I.
      * intros [->|([<-|I] & H)]; [auto|cbn [fst] in H; contradiction|auto].
    + cbn [In]. rewrite (IH ND'). split.
      * intros [<-|[->|(I & H)]]; [right; split; [auto|cbn [fst]; congruence]|auto|auto].
      * intros [->|([<-|I] & H)]; auto.
Qed.
Lemma opt_insert_keys k v m : NoDup (map fst m) -> NoDup (map fst (opt_insert k v m)).
Proof.
  induction m as [|[k' v'] m IH]; intros ND; cbn [opt_insert]; [cbn; constructor; [intros []|constructor]|].
  cbn [map fst] in ND. inversion ND as [|? ? NI ND']; subst. destruct (N.eqb_spec k k') as [->|NE]; [exact ND|].
  cbn [map fst]. constructor; [|apply IH, ND']. intros I. apply in_map_iff in I. destruct I as (x & E & I). apply opt_insert_in in I; [|exact ND'].
  destruct I as [->|(I & _)]; [cbn [fst] in E; congruence|]. apply NI. rewrite <- E. apply in_map, I.
Qed.
Lemma opt_fold_last es : let m := fold_left (fun a x => opt_insert (fst x) (snd x) a) es [] in
  NoDup (map fst m) /\ forall x, In x m <-> last_of fst es x.
Proof.
  cbv zeta. induction es as [|y es (ND & IH)] using rev_ind.
  - cbn [fold_left map]. split; [constructor|]. intros x. split; [intros []|]. intros (a & b & E & _). destruct a; discriminate E.
  - rewrite fold_left_app. cbn [fold_left]. split; [apply opt_insert_keys, ND|]. intros x. rewrite (opt_insert_in _ _ _ _ ND), IH. split.
    + intros [->|((a & b & -> & F) & NE)].
      * exists es, []. split; [destruct y; reflexivity|constructor].
      * exists a, (b ++ [y]). split; [rewrite <- app_assoc; reflexivity|]. apply Forall_app. split; [exact F|]. constructor; [congruence|constructor].
    + intros (a & b & E & F). destruct b as [|z b _] using rev_ind.
      * apply app_inj_tail in E. destruct E as (_ & <-). left. destruct y; reflexivity.
      * right. rewrite app_comm_cons, app_assoc in E. apply app_inj_tail in E. destruct E as (-> & <-). apply Forall_app in F. destruct F as (F & Fy).
        inversion Fy; subst. split; [exists a, b; auto|congruence].
Qed.

(** ** SVCB parameters *)
Lemma set_insert_in {X} (key : X -> N) x s y : sorted_by key s -> In y (set_insert key x s) <-> In y s \/ y = x /\ ~ In (key x) (map key s).
Proof.
  induction s as [|z s IH]; intros S; cbn [set_insert].
  - cbn [In map]. intuition.
  - cbn [sorted_by] in S. destruct S as (F & S). destruct (N.ltb_spec (key x) (key z)) as [L|L].
    + cbn [In map]. split; [|intros [H|(-> & _)]; tauto]. intros [<-|H]; [right; split; [reflexivity|]|tauto].
      intros [E|I]; [lia|]. apply in_map_iff in I. destruct I as (w & E & I). rewrite Forall_forall in F. specialize (F w I). lia.
    + destruct (N.eqb_spec (key x) (key z)) as [E|NE]; cbn [In map].
      * split; [tauto|]. intros [H|(-> & H)]; [exact H|]. exfalso. apply H. left. congruence.
      * rewrite (IH S). split.
        -- intros [->|[H|(-> & H)]]; [tauto|tauto|]. right. split; [reflexivity|]. intros [E|I]; [congruence|tauto].
        -- intros [[->|H]|(-> & H)]; [tauto|tauto|]. right. right. split; [reflexivity|]. tauto.
Qed.
Lemma set_fold {X} (key : X -> N) l : let s := fold_left (fun acc p => set_insert key p acc) l [] in
  sorted_by key s /\ forall x, In x s <-> first_of key l x.
Proof.
  cbv zeta. induction l as [|y l (S & IH)] using rev_ind.
  - cbn [fold_left sorted_by]. split; [exact I|]. intros x. split; [intros []|]. intros (a & b & E & _). destruct a; discriminate E.
  - rewrite fold_left_app. cbn [fold_left]. split; [apply set_insert_sorted, S|]. intros x. rewrite (set_insert_in key _ _ _ S), IH.
    assert (K : In (key y) (map key (fold_left (fun acc p => set_insert key p acc) l [])) <-> In (key y) (map key l)).
    { rewrite !in_map_iff. split.
      - intros (z & E & I). apply IH in I. destruct I as (a & b & -> & _). exists z. split; [exact E|]. apply in_or_app. right. left. reflexivity.
      - intros (z & E & I). clear IH S. induction l as [|w l IHl] using rev_ind; [destruct I|].
        rewrite fold_left_app. cbn [fold_left].
        assert (Sx : sorted_by key (fold_left (fun acc p => set_insert key p acc) l [])).
        { clear. induction l as [|w l IH] using rev_ind; [exact I|]. rewrite fold_left_app. apply set_insert_sorted, IH. }
        apply in_app_or in I. destruct I as [I|[<-|[]]].
        + destruct (IHl I) as (u & Eu & Iu). exists u. split; [exact Eu|]. apply set_insert_in; auto.
        + destruct (in_dec N.eq_dec (key w) (map key (fold_left (fun acc p => set_insert key p acc) l []))) as [H|H].
          * apply in_map_iff in H. destruct H as (u & Eu & Iu). exists u. split; [congruence|]. apply set_insert_in; auto.
          * exists w. split; [exact E|]. apply set_insert_in; auto. }
    rewrite K. split.
    + intros [(a & b & -> & F)|(-> & NI)].
      * exists a, (b ++ [y]). split; [rewrite <- app_assoc; reflexivity|exact F].
      * exists l, []. split; [reflexivity|]. apply Forall_forall. intros z I E. apply NI. rewrite <- E. apply in_map, I.
    + intros (a & b & E & F). destruct b as [|z b _] using rev_ind.
      * apply app_inj_tail in E. destruct E as (-> & ->). right. split; [reflexivity|]. intros I. apply in_map_iff in I. destruct I as (z & Ez & I).
        rewrite Forall_forall in F. exact (F z I Ez).
      * left. rewrite app_comm_cons, app_assoc in E. apply app_inj_tail in E. destruct E as (-> & <-). exists a, b. auto.
Qed.

(** ** One parameter *)
Lemma u16_as_iff {A} (f : N -> res A) d q v b : byte_list d -> extract_u16_as f (mkbuf d q) = (Ok v, b) <->
  exists n, u16_at d q n /\ f n = Ok v /\ b = mkbuf d (q + 2).
Proof.
  intros B. split; [apply u16_as_got, B|]. intros (n & U & E & ->). apply (u16_as_read _ _ _ _ _ U E).
Qed.
Lemma number_iff d q n v b : (x <- extract_bytes n ;; ret (unbe x)) (mkbuf d q) = (Ok v, b) <-> number_at d q n v /\ b = mkbuf d (q + n).
Proof.
  rewrite bind_iff. split.
  - intros (x & b1 & E1 & E). apply bytes_iff in E1. destruct E1 as (L & -> & ->). cbn [ret] in E. injection E as <- <-. split; [split; [exact L|reflexivity]|reflexivity].
  - intros ((L & ->) & ->). exists (slice d q n), (mkbuf d (q + n)). split; [apply bytes_iff; auto|reflexivity].
Qed.
Lemma u16_number d q n : byte_list d -> u16_at d q n <-> number_at d q 2 n.
Proof.
  intros B. pose proof (u16_iff d q n (mkbuf d (q + 2)) B) as H1. pose proof (number_iff d q 2 n (mkbuf d (q + 2))) as H2.
  change (x <- extract_bytes 2;; ret (unbe x)) with extract_u16 in H2. tauto.
Qed.
Lemma pkey_iff n k : pkey_try_from n = Ok k <-> pkey_code k = n /\ pkey_documented k.
Proof.
  destruct pkey_faithful as (F1 & F2 & _). split; [intros E; apply F2 in E; tauto|]. intros (<- & D). apply F1, D.
Qed.
Lemma mandatory_iff c d : byte_list d -> allocatable d -> forall fuel len acc q v b, (q <= length d)%nat -> len < M64 -> (length d - q < fuel)%nat ->
  mandatory_loop c fuel len acc (mkbuf d q) = (Ok v, b) <->
  exists raw, consecutive (key_at d) q raw (q + N.to_nat len) /\ v = fold_left (fun a k => set_insert pkey_code k a) raw acc /\ b = mkbuf d (q + N.to_nat len).
Proof.
  intros B A. induction fuel as [|fuel IH]; intros len acc q v b L M F; [lia|]. cbn [mandatory_loop]. destruct (N.eqb_spec len 0) as [->|Z].
  - cbn [N.to_nat]. rewrite Nat.add_0_r. split.
    + intros E. injection E as <- <-. exists []. split; [constructor|]. auto.
    + intros (raw & C & -> & ->). inversion C as [|p x m ys e En Lm C']; subst; [reflexivity|]. apply consecutive_start in C'. lia.
  - split.
    + intros E. apply bind_iff in E. destruct E as (k & b1 & E1 & E). apply u16_as_iff in E1; [|exact B]. destruct E1 as (n & U & K & ->).
      pose proof (u16_at_end _ _ _ U) as LU. apply bind_iff in E. destruct E as (l & b1 & E1 & E). apply lift_ok in E1. destruct E1 as [Us ->].
      apply usub_cases in Us; [|exact M|unfold M64; lia]. assert (Ml : l < M64) by (unfold M64 in *; lia).
      pose proof (mandatory_exact _ _ _ _ _ _ _ _ A LU Ml E) as (I1 & _ & _). unfold allocatable in A. destruct Us as [[Us ->]|[Us ->]]; [|unfold M64 in *; lia].
      apply IH in E; [|lia|lia|lia]. destruct E as (raw & C & -> & ->). apply pkey_iff in K. destruct K as (<- & D).
      replace (q + 2 + N.to_nat (len - 2))%nat with (q + N.to_nat len)%nat in * by lia.
      exists (k :: raw). split; [|split; reflexivity]. apply (one_more _ q k (q + 2)%nat); [repeat split; assumption|lia|exact C].
    + intros (raw & C & -> & ->). inversion C as [|p k m ys e En Lm C']; subst; [lia|]. destruct En as (U & D & ->).
      pose proof (consecutive_start _ _ _ _ C') as Lm'. pose proof (u16_at_end _ _ _ U) as LU.
      apply bind_iff. exists k, (mkbuf d (q + 2)). split; [apply u16_as_iff; [exact B|]; exists (pkey_code k); split; [exact U|]; split; [apply pkey_iff; auto|reflexivity]|].
      apply bind_iff. exists (len - 2), (mkbuf d (q + 2)). split.
      { unfold lift, usub. destruct (N.leb_spec 2 len); [reflexivity|lia]. }
      cbn [fold_left]. apply IH; [lia|lia|lia|]. replace (q + 2 + N.to_nat (len - 2))%nat with (q + N.to_nat len)%nat by lia. exists ys. auto.
Qed.
Lemma alpn_iff c d : byte_list d -> allocatable d -> forall fuel len acc q v b, (q <= length d)%nat -> len < M64 -> (length d - q < fuel)%nat ->
  alpn_loop c fuel len acc (mkbuf d q) = (Ok v, b) <->
  exists raw, consecutive (string_at d) q raw (q + N.to_nat len) /\ v = acc ++ raw /\ b = mkbuf d (q + N.to_nat len).
Proof.
  intros B A. induction fuel as [|fuel IH]; intros len acc q v b L M F; [lia|]. cbn [alpn_loop]. destruct (N.eqb_spec len 0) as [->|Z].
  - cbn [N.to_nat]. rewrite Nat.add_0_r. split.
    + intros E. injection E as <- <-. exists []. split; [constructor|]. rewrite app_nil_r. auto.
    + intros (raw & C & -> & ->). inversion C as [|p x m ys e En Lm C']; subst; [rewrite app_nil_r; reflexivity|]. apply consecutive_start in C'. lia.
  - split.
    + intros E. apply bind_iff in E. destruct E as (n & b1 & E1 & E). apply bind_iff in E. destruct E as (s & b2 & E2 & E).
      assert (H : extract_character_string (mkbuf d q) = (Ok s, b2)) by (apply bind_iff; eauto). apply char_string_iff in H; [|exact B]. destruct H as (e & S & ->).
      pose proof (string_at_end _ _ _ _ S) as LS. apply u8_iff in E1; [|exact B]. destruct E1 as (E1 & ->).
      assert (n = N.of_nat (length s)) as -> by (destruct S as (O & _); unfold octet_at in O; congruence).
      apply bind_iff in E. destruct E as (l & b1 & E3 & E). apply lift_ok in E3. destruct E3 as [Us ->].
      assert (Es : e = (q + 1 + length s)%nat) by apply S. unfold allocatable in A.
      apply usub_cases in Us; [|exact M|unfold M64; lia]. assert (Ml : l < M64) by (unfold M64 in *; lia).
      pose proof (alpn_exact c fuel l (acc ++ [s]) d e v b B A ltac:(lia) Ml E) as (I1 & _ & _).
      destruct Us as [[Us ->]|[Us ->]]; [|unfold M64 in *; lia].
      apply IH in E; [|lia|lia|lia]. destruct E as (raw & C & -> & ->).
      replace (e + N.to_nat (len - (N.of_nat (length s) + 1)))%nat with (q + N.to_nat len)%nat in * by lia.
      exists (s :: raw). split; [|split; [rewrite <- app_assoc; reflexivity|reflexivity]]. apply (one_more _ q s e); [exact S|lia|exact C].
    + intros (raw & C & -> & ->). inversion C as [|p s m ys e S Lm C']; subst; [lia|]. pose proof (string_at_end _ _ _ _ S) as LS.
      pose proof (consecutive_start _ _ _ _ C') as Lm'. assert (Es : m = (q + 1 + length s)%nat) by apply S.
      assert (H : extract_character_string (mkbuf d q) = (Ok s, mkbuf d m)) by (apply char_string_iff; eauto). apply bind_iff in H. destruct H as (n & b1 & E1 & E2).
      apply bind_iff. exists n, b1. split; [exact E1|]. apply bind_iff. exists s, (mkbuf d m). split; [exact E2|].
      apply u8_iff in E1; [|exact B]. destruct E1 as (E1 & ->).
      assert (n = N.of_nat (length s)) as -> by (destruct S as (O & _); unfold octet_at in O; congruence).
      apply bind_iff. exists (len - (N.of_nat (length s) + 1)), (mkbuf d m). split.
      { unfold lift, usub. destruct (N.leb_spec (N.of_nat (length s) + 1) len); [reflexivity|lia]. }
      change (acc ++ s :: ys) with (acc ++ [s] ++ ys). rewrite app_assoc. apply IH; [lia|lia|lia|].
      replace (m + N.to_nat (len - (N.of_nat (length s) + 1)))%nat with (q + N.to_nat len)%nat by lia. exists ys. auto.
Qed.
Lemma first_of_self {X} (key : X -> N) l x : (forall a b, In a l -> In b l -> key a = key b -> a = b) -> first_of key l x <-> In x l.
Proof.
  intros INJ. split; [intros (a & b & -> & _); apply in_or_app; right; left; reflexivity|].
  induction l as [|y l IH]; intros I; [destruct I|]. destruct (N.eq_dec (key y) (key x)) as [E|NE].
  - assert (y = x) as -> by (apply INJ; [left; reflexivity|exact I|exact E]). exists [], l. split; [reflexivity|constructor].
  - destruct I as [->|I]; [contradiction|]. destruct IH as (a & b & -> & F); [intros; apply INJ; [right|right|]; assumption|exact I|].
    exists (y :: a), b. split; [reflexivity|]. constructor; assumption.
Qed.
Lemma sorted_ext {X} (key : X -> N) a : forall b, sorted_by key a -> sorted_by key b -> (forall x, In x a <-> In x b) -> a = b.
Proof.
  induction a as [|x a IH]; intros [|y b] Sa Sb H.
  - reflexivity.
  - destruct (proj2 (H y)). left. reflexivity.
  - destruct (proj1 (H x)). left. reflexivity.
  - cbn [sorted_by] in Sa, Sb. destruct Sa as [Fa Sa], Sb as [Fb Sb]. rewrite Forall_forall in Fa, Fb.
    assert (x = y) as ->.
    { destruct (proj1 (H x) (or_introl eq_refl)) as [E|I1]; [auto|]. destruct (proj2 (H y) (or_introl eq_refl)) as [E|I2]; [auto|].
      specialize (Fa _ I2). specialize (Fb _ I1). lia. }
    f_equal. apply IH; [exact Sa|exact Sb|]. intros z. split; intros I.
    + destruct (proj1 (H z) (or_intror I)) as [<-|]; [|assumption]. specialize (Fa _ I). lia.
    + destruct (proj2 (H z) (or_intror I)) as [<-|]; [|assumption]. specialize (Fb _ I). lia.
Qed.
Lemma param_iff c d q x b : byte_list d -> allocatable d -> (q <= length d)%nat ->
  param_try_from c (mkbuf d q) = (Ok x, b) <-> exists e, param_at d q x e /\ (e <= length d)%nat /\ b = mkbuf d e.
Proof.
  intros B A L. unfold param_try_from.
  assert (LEN : forall p len, u16_at d p len -> (p + 2 <= length d)%nat /\ len < M64).
  { intros p len U. split; [apply (u16_at_end _ _ _ U)|]. destruct U as (u & w & _ & Hu & _ & Hw & ->). unfold M64. lia. }
  assert (KS : forall raw ks p e, consecutive (key_at d) p raw e ->
     ks = fold_left (fun a k => set_insert pkey_code k a) raw [] <-> sorted_by pkey_code ks /\ forall k, In k ks <-> In k raw).
  { intros raw ks p e C. destruct (set_fold pkey_code raw) as (S & I).
    assert (D : forall k, In k raw -> pkey_documented k).
    { clear - C. induction C as [|p k m ys e (_ & D & _) _ C IH]; intros y I; [destruct I|]. destruct I as [<-|I]; [exact D|apply IH, I]. }
    assert (FI : forall k, first_of pkey_code raw k <-> In k raw).
    { intros k. apply first_of_self. intros u w Iu Iw. destruct pkey_faithful as (_ & _ & _ & J). apply J; auto. }
    split; [intros ->; split; [exact S|intros k; rewrite I; apply FI]|]. intros (S' & I'). apply (sorted_ext pkey_code); [exact S'|exact S|].
    intros k. rewrite I', I, FI. reflexivity. }
  split.
  - intros E. apply bind_iff in E. destruct E as (k & b1 & E1 & E). apply u16_as_iff in E1; [|exact B]. destruct E1 as (n & U & K & ->).
    apply pkey_iff in K. destruct K as (<- & D). apply bind_iff in E. destruct E as (len & b1 & E1 & E). apply u16_iff in E1; [|exact B]. destruct E1 as (U2 & ->).
    destruct (LEN _ _ U2) as (L4 & M). replace (q + 2 + 2)%nat with (q + 4)%nat in * by lia. unfold param_at, param_code.
    destruct k.
    + unfold remaining in E. cbn [data pos] in E. apply bind_iff in E. destruct E as (ks & b1 & E1 & E). pose proof (mandatory_exact _ _ _ _ _ _ _ _ A L4 M E1) as (I1 & _ & _).
      apply mandatory_iff in E1; [|assumption|assumption|lia|assumption|lia]. destruct E1 as (raw & C & -> & ->). cbn [ret] in E. injection E as <- <-.
      eexists. split; [|split; [|reflexivity]]; [|lia]. split; [exact U|]. split; [exact D|]. exists len. split; [exact U2|]. split; [reflexivity|].
      exists raw. split; [exact C|]. apply (KS _ _ _ _ C). reflexivity.
    + unfold remaining in E. cbn [data pos] in E. apply bind_iff in E. destruct E as (ks & b1 & E1 & E). pose proof (alpn_exact _ _ _ _ _ _ _ _ B A L4 M E1) as (I1 & _ & _).
      apply alpn_iff in E1; [|assumption|assumption|lia|assumption|lia]. destruct E1 as (raw & C & -> & ->). cbn [ret app] in E. injection E as <- <-.
      eexists. split; [|split; [|reflexivity]]; [|lia]. split; [exact U|]. split; [exact D|]. exists len. split; [exact U2|]. split; [reflexivity|exact C].
    + cbn [ret] in E. injection E as <- <-. exists (q + 4)%nat. split; [|split; [lia|reflexivity]]. split; [exact U|]. split; [exact D|]. eauto.
    + apply bind_iff in E. destruct E as (v & b1 & E1 & E). apply number_iff in E1. destruct E1 as (V & ->). cbn [ret] in E. injection E as <- <-.
      exists (q + 6)%nat. split; [|split; [destruct V; lia|f_equal; lia]]. split; [exact U|]. split; [exact D|]. eauto.
    + apply bind_iff in E. destruct E as (v & b1 & E1 & E). apply number_iff in E1. destruct E1 as (V & ->). cbn [ret] in E. injection E as <- <-.
      exists (q + 8)%nat. split; [|split; [destruct V; lia|f_equal; lia]]. split; [exact U|]. split; [exact D|]. eauto.
    + apply bind_iff in E. destruct E as (v & b1 & E1 & E). apply bytes_iff in E1. destruct E1 as (V & -> & ->). cbn [ret] in E. injection E as <- <-.
      eexists. split; [|split; [|reflexivity]]; [|exact V]. split; [exact U|]. split; [exact D|]. eauto.
    + apply bind_iff in E. destruct E as (v & b1 & E1 & E). apply bytes_iff in E1. destruct E1 as (V & -> & ->). cbn [ret] in E. injection E as <- <-.
      exists (q + 20)%nat. split; [|split; [lia|f_equal; lia]]. split; [exact U|]. split; [exact D|]. exists len. split; [exact U2|]. split; [reflexivity|]. split; [exact V|reflexivity].
    + apply bind_iff in E. destruct E as (v & b1 & E1 & E). apply bytes_iff in E1. destruct E1 as (V & -> & ->). cbn [ret] in E. injection E as <- <-.
      eexists. split; [|split; [|reflexivity]]; [|exact V]. split; [exact U|]. split; [exact D|]. eauto.
    + cbn [ret] in E. injection E as <- <-. exists (q + 4)%nat. split; [|split; [lia|reflexivity]]. split; [exact U|]. split; [exact D|]. eauto.
  - intros (e & (U & D & len & U2 & H) & Le & ->). apply bind_iff. exists (param_key x), (mkbuf d (q + 2)).
    split; [apply u16_as_iff; [exact B|]; exists (param_code x); split; [exact U|]; split; [apply pkey_iff; auto|reflexivity]|].
    apply bind_iff. exists len, (mkbuf d (q + 4)). split; [apply u16_iff; [exact B|]; split; [exact U2|f_equal; lia]|].
    destruct (LEN _ _ U2) as (L4 & M). replace (q + 2 + 2)%nat with (q + 4)%nat in * by lia.
    destruct x; cbn [param_key]; unfold remaining; cbn [data pos].
    + destruct H as (-> & raw & C & SI). apply bind_iff. eexists _, _. split; [apply mandatory_iff; [assumption|assumption|lia|exact M|lia|]; exists raw; split; [exact C|]; split; reflexivity|].
      cbn [ret]. rewrite (proj2 (KS _ _ _ _ C) SI). reflexivity.
    + destruct H as (-> & C). apply bind_iff. eexists _, _. split; [apply alpn_iff; [assumption|assumption|lia|exact M|lia|]; exists ids; split; [exact C|]; split; reflexivity|]. reflexivity.
    + subst e. reflexivity.
    + destruct H as (-> & V). apply bind_iff. exists n, (mkbuf d (q + 6)). split; [|reflexivity]. apply number_iff. split; [exact V|f_equal; lia].
    + destruct H as (-> & V). apply bind_iff. exists a, (mkbuf d (q + 8)). split; [|reflexivity]. apply number_iff. split; [exact V|f_equal; lia].
    + destruct H as (-> & V & ->). apply bind_iff. eexists _, _. split; [apply bytes_iff; split; [exact V|]; split; reflexivity|]. reflexivity.
    + destruct H as (-> & V & ->). apply bind_iff. exists (slice d (q + 4) 16), (mkbuf d (q + 20)). split; [|reflexivity]. apply bytes_iff. split; [exact V|]. split; [reflexivity|f_equal; lia].
    + destruct H as (-> & V & ->). apply bind_iff. eexists _, _. split; [apply bytes_iff; split; [exact V|]; split; reflexivity|]. reflexivity.
    + subst e. reflexivity.
Qed.

(** ** The whole SVCB record *)
Lemma param_at_start d q x e : param_at d q x e -> (q < e)%nat.
Proof.
  intros (_ & _ & len & _ & H). destruct x; try (destruct H as (-> & _)); subst; lia.
Qed.
Lemma param_step_iff c acc d q v b : byte_list d -> allocatable d -> (q <= length d)%nat -> param_step c acc (mkbuf d q) = (Ok v, b) <->
  exists x e, param_at d q x e /\ (q < e <= length d)%nat /\ v = set_insert param_code x acc /\ b = mkbuf d e.
Proof.
  intros B A L. split.
  - intros E. apply param_step_ok in E; [|assumption..]. destruct E as (x & e & E & -> & -> & I). apply param_iff in E; [|assumption..].
    destruct E as (e' & P & Le & E). injection E as <-. exists x, e. split; [exact P|]. split; [lia|auto].
  - intros (x & e & P & I & -> & ->). unfold param_step, sub_buffer, remaining. cbn [data pos].
    destruct (Nat.ltb_spec (length d) (q + (length d - q))); [lia|]. replace (q + (length d - q))%nat with (length d) by lia. rewrite firstn_all.
    rewrite (proj2 (param_iff c d q x (mkbuf d e) B A L)); [|exists e; split; [exact P|split; [lia|reflexivity]]]. cbn [pos].
    unfold bind, set_position. cbn [data pos]. destruct (Nat.ltb_spec (length d) e); [lia|]. reflexivity.
Qed.
Lemma svcb_iff c d q x b : byte_list d -> allocatable d -> (q <= length d)%nat -> svcb_try_from c (mkbuf d q) = (Ok x, b) <->
  exists k ps, u16_at d q (sv_prio x) /\ name_at d 191 (q + 2) (sv_target x) k /\ consecutive (param_at d) k ps (length d) /\
    sorted_by param_code (sv_params x) /\ (forall y, In y (sv_params x) <-> first_of param_code ps y) /\ b = mkbuf d (length d).
Proof.
  intros B A L. unfold svcb_try_from.
  assert (EQ : forall ps s, s = fold_left (fun a p => set_insert param_code p a) ps [] <-> sorted_by param_code s /\ forall y, In y s <-> first_of param_code ps y).
  { intros ps s. destruct (set_fold param_code ps) as (S & I). split; [intros ->; auto|]. intros (S' & I'). apply (sorted_ext param_code); [assumption..|].
    intros y. rewrite I, I'. reflexivity. }
  split.
  - intros E. apply bind_iff in E. destruct E as (p & b1 & E1 & E). apply u16_iff in E1; [|exact B]. destruct E1 as (U & ->). pose proof (u16_at_end _ _ _ U) as LU.
    apply bind_iff in E. destruct E as (f & b1 & E1 & E). pose proof (fqdn_end _ _ _ _ B LU E1) as (D & P).
    apply name_got in E1; [|assumption..]. destruct E1 as (k & NA & ->). cbn [data pos] in P.
    apply bind_iff in E. destruct E as (s & b1 & E1 & E). cbn [ret] in E. injection E as <- <-.
    apply (loop_iff d (param_step c) (param_at d) (fun a p => set_insert param_code p a)) in E1; [| |lia].
    + destruct E1 as (ps & C & V & ->). apply EQ in V. destruct V as (S & I). exists k, ps. cbn [sv_prio sv_target sv_params]. auto 10.
    + intros a p' v b' Lp. apply param_step_iff; assumption.
  - intros (k & ps & U & NA & C & S & I & ->). pose proof (u16_at_end _ _ _ U) as LU. pose proof (consecutive_start _ _ _ _ C) as Lk.
    apply bind_iff. exists (sv_prio x), (mkbuf d (q + 2)). split; [apply u16_iff; auto|].
    apply bind_iff. exists (sv_target x), (mkbuf d k). split; [apply (extract_fqdn_iff d (q + 2) _ _ B); exact NA|].
    apply bind_iff. exists (sv_params x), (mkbuf d (length d)). split; [|destruct x; reflexivity].
    apply (loop_iff d (param_step c) (param_at d) (fun a p => set_insert param_code p a)); [|lia|].
    + intros a p' v b' Lp. apply param_step_iff; assumption.
    + exists ps. split; [exact C|]. split; [|reflexivity]. apply EQ. auto.
Qed.

(** ** Reading type bitmaps *)
Definition insert16 (c : cfg) (w : N) (acc : tset) (p : N) : res tset :=
  if 256 * w + p <? 65536 then insert_code c w acc p
  else if ovf c then Panic else let! t := rtype_try_from c ((256 * w + p) mod 65536) in Ok (set_insert rtype_code t acc).
Lemma octet_types16 c w i o acc : w < 256 -> i < 255 -> octet_types c w i o acc = rfold (insert16 c w) (octet_positions i o) acc.
Proof.
  intros W I. unfold octet_types, octet_positions.
  match goal with |- rfold ?f _ _ = _ => set (body := f) end.
  assert (HB : forall acc j, j <= 7 -> body acc j = if bit_is_set o j then insert16 c w acc (8 * i + j) else Ok acc).
  { intros a j J. unfold body, insert16, insert_code. destruct (bit_is_set o j); [|reflexivity]. unfold umul, uadd, u16, M16. rewrite (N.mod_small i) by lia.
    destruct (N.ltb_spec (256 * w) 65536); [|lia]. cbn [rbind]. destruct (N.ltb_spec (8 * i) 65536); [|lia]. cbn [rbind].
    rewrite N.add_assoc. destruct (N.ltb_spec (256 * w + 8 * i) 65536); cbn [rbind].
    - destruct (N.ltb_spec (256 * w + 8 * i + j) 65536); cbn [rbind]; [reflexivity|]. destruct (ovf c); reflexivity.
    - destruct (N.ltb_spec (256 * w + 8 * i + j) 65536); [lia|]. destruct (ovf c); [reflexivity|]. cbn [rbind].
      destruct (N.ltb_spec ((256 * w + 8 * i) mod 65536 + j) 65536); [|lia]. cbn [rbind]. do 2 f_equal. lia. }
  clearbody body. assert (HF : Forall (fun j => j <= 7) [0; 1; 2; 3; 4; 5; 6; 7]) by (repeat constructor; lia).
  revert acc. induction HF as [|j l J HF IH]; intros acc; [reflexivity|]. cbn [rfold filter map]. rewrite HB by assumption. destruct (bit_is_set o j).
  - cbn [map rfold]. destruct (insert16 c w acc (8 * i + j)); cbn [rbind]; auto.
  - cbn [rbind]. apply IH.
Qed.
Lemma bitmap_types16 c w bm : w < 256 -> forall i acc, i + N.of_nat (length bm) <= 255 -> bitmap_types c w i bm acc = rfold (insert16 c w) (positions i bm) acc.
Proof.
  intros W. induction bm as [|o bm IH]; intros i acc L; [reflexivity|]. cbn [bitmap_types positions length] in *. rewrite rfold_app, octet_types16 by lia.
  destruct (rfold (insert16 c w) (octet_positions i o) acc); cbn [rbind]; auto. apply IH. lia.
Qed.
Lemma insert16_iff c w acc p v : insert16 c w acc p = Ok v <-> exists t, bit_means c (256 * w + p) t /\ v = set_insert rtype_code t acc.
Proof.
  destruct (rtype_faithful c) as (F1 & F2 & _).
  assert (R : forall n t, rtype_try_from c n = Ok t <-> decodable c t /\ rtype_code t = n).
  { intros n t. split; [apply F2|]. intros (D & <-). apply F1, D. }
  assert (Q : forall n v, (let! t := rtype_try_from c n in Ok (set_insert rtype_code t acc)) = Ok v <-> exists t, (decodable c t /\ rtype_code t = n) /\ v = set_insert rtype_code t acc).
  { intros n v'. split.
    - destruct (rtype_try_from c n) as [t|e| |] eqn:E; cbn [rbind]; intros H; try discriminate. apply Ok_inj in H. subst v'. exists t. split; [apply R, E|reflexivity].
    - intros (t & H & ->). apply R in H. rewrite H. reflexivity. }
  unfold insert16, insert_code, bit_means. destruct (N.ltb_spec (256 * w + p) 65536) as [H|H].
  - rewrite Q, (N.mod_small _ _ H). split; intros (t & K & ->); exists t; tauto.
  - destruct (ovf c) eqn:O.
    + split; [discriminate|]. intros (t & (_ & _ & [K|K]) & _); [lia|discriminate].
    + rewrite Q. split; intros (t & K & ->); exists t; tauto.
Qed.
Lemma rfold16_iff c w ps : forall acc v, rfold (insert16 c w) ps acc = Ok v <->
  exists ts, Forall2 (fun p t => bit_means c (256 * w + p) t) ps ts /\ v = fold_left (fun a t => set_insert rtype_code t a) ts acc.
Proof.
  induction ps as [|p ps IH]; intros acc v; cbn [rfold].
  - split; [intros E; apply Ok_inj in E; subst v; exists []; auto|]. intros (ts & F & ->). inversion F; subst. reflexivity.
  - split.
    + destruct (insert16 c w acc p) as [a|e| |] eqn:E; cbn [rbind]; intros H; try discriminate. apply insert16_iff in E. destruct E as (t & M & ->).
      apply IH in H. destruct H as (ts & F & ->). exists (t :: ts). auto.
    + intros (ts & F & ->). inversion F as [|? t ? ts' M F']; subst. rewrite (proj2 (insert16_iff c w acc p (set_insert rtype_code t acc))); [|eauto]. cbn [rbind]. apply IH. eauto.
Qed.
Definition win_entry (c : cfg) (d : bytes) (q : nat) (x : (N * bytes) * list rtype) (e : nat) : Prop :=
  window_at d q (fst x) e /\ Forall2 (fun p t => bit_means c (256 * fst (fst x) + p) t) (positions 0 (snd (fst x))) (snd x).
Lemma window_at_end d q x e : window_at d q x e -> (q < e <= length d)%nat.
Proof. intros (_ & _ & L & _ & ->). lia. Qed.
Lemma window_step_iff c d acc q v b : byte_list d -> window_step c acc (mkbuf d q) = (Ok v, b) <->
  exists x e, win_entry c d q x e /\ (q < e <= length d)%nat /\ v = fold_left (fun a t => set_insert rtype_code t a) (snd x) acc /\ b = mkbuf d e.
Proof.
  intros B. unfold window_step. split.
  - intros E. apply bind_iff in E. destruct E as (w & b1 & E1 & E). apply u8_iff in E1; [|exact B]. destruct E1 as (E1 & ->).
    apply bind_iff in E. destruct E as (n & b1 & E2 & E). apply u8_iff in E2; [|exact B]. destruct E2 as (E2 & ->).
    apply bind_iff in E. destruct E as (bm & b1 & E3 & E). apply bytes_iff in E3. destruct E3 as (L & -> & ->).
    apply lift_ok in E. destruct E as (E & ->). replace (q + 1 + 1)%nat with (q + 2)%nat in * by lia.
    pose proof (Forall_nth_error _ _ _ _ B E1) as W. pose proof (Forall_nth_error _ _ _ _ B E2) as LN. cbn beta in W, LN.
    rewrite bitmap_types16 in E; [|exact W|rewrite slice_length by exact L; lia]. apply rfold16_iff in E. destruct E as (ts & F & ->).
    assert (WA : window_at d q (w, slice d (q + 2) (N.to_nat n)) (q + 2 + N.to_nat n)).
    { unfold window_at. cbn [fst snd]. rewrite slice_length by exact L. rewrite N2Nat.id. auto. }
    exists ((w, slice d (q + 2) (N.to_nat n)), ts), (q + 2 + N.to_nat n)%nat. unfold win_entry. cbn [fst snd]. split; [auto|]. split; [apply (window_at_end _ _ _ _ WA)|auto].
  - intros ([[w bm] ts] & e & (WA & F) & _ & -> & ->). cbn [fst snd] in *. pose proof WA as (E1 & E2 & L & S & ->). cbn [fst snd] in *.
    pose proof (Forall_nth_error _ _ _ _ B E1) as W. pose proof (Forall_nth_error _ _ _ _ B E2) as LN. cbn beta in W, LN.
    apply bind_iff. exists w, (mkbuf d (q + 1)). split; [apply u8_iff; auto|]. apply bind_iff. exists (N.of_nat (length bm)), (mkbuf d (q + 2)).
    split; [apply u8_iff; [exact B|]; split; [exact E2|f_equal; lia]|]. apply bind_iff. exists bm, (mkbuf d (q + 2 + length bm)). rewrite Nat2N.id. split; [apply bytes_iff; auto|].
    unfold lift. f_equal. rewrite bitmap_types16; [|exact W|lia]. apply rfold16_iff. eauto.
Qed.
Lemma bit_set_positions bm p : bit_set bm p <-> In p (positions 0 bm).
Proof.
  rewrite positions_in, N.sub_0_r. unfold bit_set. split.
  - intros (o & E & T). pose proof (nth_error_Some bm (N.to_nat (p / 8))) as H. rewrite E in H. assert (N.to_nat (p / 8) < length bm)%nat by (apply H; discriminate).
    split; [lia|]. rewrite (nth_error_nth _ _ 0 E). exact T.
  - intros (I & T). exists (nth (N.to_nat (p / 8)) bm 0). split; [|exact T]. apply nth_error_nth'. lia.
Qed.
Lemma entries_split c d q xs e : consecutive (win_entry c d) q xs e <->
  consecutive (window_at d) q (map fst xs) e /\ Forall (fun x => Forall2 (fun p t => bit_means c (256 * fst (fst x) + p) t) (positions 0 (snd (fst x))) (snd x)) xs.
Proof.
  split.
  - induction 1 as [|p x m ys e (W & F) Lm C (IH1 & IH2)]; cbn [map]; [split; constructor|]. split; [econstructor; eassumption|]. constructor; assumption.
  - revert q. induction xs as [|x xs IH]; intros q (C & F); cbn [map] in C; inversion C; subst; [constructor|]. inversion F; subst.
    econstructor; [split; eassumption|assumption|]. apply IH. auto.
Qed.
Lemma fold_nested (xs : list ((N * bytes) * list rtype)) : forall acc : tset,
  fold_left (fun a x => fold_left (fun a t => set_insert rtype_code t a) (snd x) a) xs acc = fold_left (fun a t => set_insert rtype_code t a) (flat_map snd xs) acc.
Proof. induction xs as [|x xs IH]; intros acc; cbn [fold_left flat_map]; [reflexivity|]. rewrite IH, fold_left_app. reflexivity. Qed.
Lemma bit_means_fun c n t t' : bit_means c n t -> bit_means c n t' -> t = t'.
Proof. intros (_ & E & _) (_ & E' & _). apply rtype_code_inj. congruence. Qed.
Lemma forall2_in {A B} (R : A -> B -> Prop) l l' : Forall2 R l l' -> (forall x, In x l -> exists y, In y l' /\ R x y) /\ (forall y, In y l' -> exists x, In x l /\ R x y).
Proof.
  induction 1 as [|x y l l' H F (IH1 & IH2)]; [split; intros ? []|]. split.
  - intros z [<-|I]; [exists y; cbn; auto|]. destruct (IH1 _ I) as (w & Iw & Hw). exists w. cbn. auto.
  - intros z [<-|I]; [exists x; cbn; auto|]. destruct (IH2 _ I) as (w & Iw & Hw). exists w. cbn. auto.
Qed.
Lemma types_iff c d q ts b : byte_list d -> (q <= length d)%nat -> types_try_from c (mkbuf d q) = (Ok ts, b) <->
  exists ws, windows_at d q ws /\ (forall n, marked ws n -> exists t, bit_means c n t) /\ sorted_by rtype_code ts /\
    (forall t, In t ts <-> exists n, marked ws n /\ bit_means c n t) /\ b = mkbuf d (length d).
Proof.
  intros B L. unfold types_try_from.
  rewrite (loop_iff d (window_step c) (win_entry c d) (fun a x => fold_left (fun a t => set_insert rtype_code t a) (snd x) a)); [| |exact L].
  2: { intros a p v b' _. apply window_step_iff, B. }
  split.
  - intros (xs & C & -> & ->). apply entries_split in C. destruct C as (C & F). exists (map fst xs). split; [exact C|]. rewrite fold_nested.
    destruct (set_fold rtype_code (flat_map snd xs)) as (S & I).
    assert (FI : forall t, first_of rtype_code (flat_map snd xs) t <-> In t (flat_map snd xs)) by (intros t; apply first_of_self; intros u w _ _; apply rtype_code_inj).
    rewrite Forall_forall in F. split; [|split; [exact S|split; [|reflexivity]]].
    + intros n (x & p & Ix & Bp & ->). apply in_map_iff in Ix. destruct Ix as ((x' & ts) & <- & Ix). specialize (F _ Ix). cbn [fst snd] in *.
      apply forall2_in in F. destruct F as (F & _). apply bit_set_positions in Bp. destruct (F _ Bp) as (t & _ & M). eauto.
    + intros t. rewrite I, FI, in_flat_map. split.
      * intros ((x & ts) & Ix & It). pose proof (F _ Ix) as Fx. cbn [fst snd] in *. apply forall2_in in Fx. destruct Fx as (_ & Fx). destruct (Fx _ It) as (p & Ip & M).
        exists (256 * fst x + p). split; [|exact M]. exists x, p. split; [apply (in_map fst _ _ Ix)|]. split; [apply bit_set_positions, Ip|reflexivity].
      * intros (n & (x & p & Ix & Bp & ->) & M). apply in_map_iff in Ix. destruct Ix as ((x' & ts) & <- & Ix). pose proof (F _ Ix) as Fx. cbn [fst snd] in *.
        apply forall2_in in Fx. destruct Fx as (Fx & _). apply bit_set_positions in Bp. destruct (Fx _ Bp) as (t' & It' & M'). exists (x', ts). split; [exact Ix|].
        rewrite (bit_means_fun _ _ _ _ M M'). exact It'.
  - intros (ws & C & ALL & S & I & ->).
    assert (X : forall w, In w ws -> exists l, Forall2 (fun p t => bit_means c (256 * fst w + p) t) (positions 0 (snd w)) l).
    { intros w Iw. assert (H : forall p, In p (positions 0 (snd w)) -> exists t, bit_means c (256 * fst w + p) t).
      { intros p Ip. apply ALL. exists w, p. split; [exact Iw|]. split; [apply bit_set_positions, Ip|reflexivity]. }
      induction (positions 0 (snd w)) as [|p ps IH]; [exists []; constructor|]. destruct (H p (or_introl eq_refl)) as (t & M).
      destruct IH as (l & Fl); [intros; apply H; right; assumption|]. exists (t :: l). constructor; assumption. }
    assert (Y : exists xs, map fst xs = ws /\ Forall (fun x => Forall2 (fun p t => bit_means c (256 * fst (fst x) + p) t) (positions 0 (snd (fst x))) (snd x)) xs).
    { clear - X. induction ws as [|w ws IH]; [exists []; auto|]. destruct (X w (or_introl eq_refl)) as (l & Fl). destruct IH as (xs & <- & F); [intros; apply X; right; assumption|].
      exists ((w, l) :: xs). split; [reflexivity|]. constructor; assumption. }
    destruct Y as (xs & <- & F). exists xs. split; [apply entries_split; auto|]. split; [|reflexivity]. rewrite fold_nested.
    destruct (set_fold rtype_code (flat_map snd xs)) as (S' & I').
    assert (FI : forall t, first_of rtype_code (flat_map snd xs) t <-> In t (flat_map snd xs)) by (intros t; apply first_of_self; intros u w _ _; apply rtype_code_inj).
    apply (sorted_ext rtype_code); [exact S|exact S'|]. intros t. rewrite I, I', FI, in_flat_map. rewrite Forall_forall in F. split.
    + intros (n & (x & p & Ix & Bp & ->) & M). apply in_map_iff in Ix. destruct Ix as ((x' & l) & <- & Ix). pose proof (F _ Ix) as Fx. cbn [fst snd] in *.
      apply forall2_in in Fx. destruct Fx as (Fx & _). apply bit_set_positions in Bp. destruct (Fx _ Bp) as (t' & It' & M'). exists (x', l). split; [exact Ix|].
      rewrite (bit_means_fun _ _ _ _ M M'). exact It'.
    + intros ((x & l) & Ix & It). pose proof (F _ Ix) as Fx. cbn [fst snd] in *. apply forall2_in in Fx. destruct Fx as (_ & Fx). destruct (Fx _ It) as (p & Ip & M).
      exists (256 * fst x + p). split; [|exact M]. exists x, p. split; [apply (in_map fst _ _ Ix)|]. split; [apply bit_set_positions, Ip|reflexivity].
Qed.

(** ** Writing type bitmaps *)
Definition window_pair (w : N) (codes : list N) : N * bytes := (w, firstn (S (N.to_nat (last_index codes))) (block_of codes)).
Lemma window_pair_length w codes : length (snd (window_pair w codes)) = S (N.to_nat (last_index codes)).
Proof. unfold window_pair. cbn [snd]. rewrite firstn_length, block_of_length. assert (last_index codes < 32) by (apply N.mod_lt; lia). lia. Qed.
Lemma lor_byte x k : x < 256 -> N.lor x (N.shiftr 128 k) < 256.
Proof.
  intros H. destruct (N.eq_dec (N.lor x (N.shiftr 128 k)) 0) as [->|Z]; [lia|]. change 256 with (2 ^ 8). apply N.log2_lt_pow2; [lia|].
  rewrite N.log2_lor, N.log2_shiftr. change (N.log2 128) with 7.
  assert (N.log2 x < 8) by (destruct (N.eq_dec x 0) as [->|]; [reflexivity|apply N.log2_lt_pow2; [lia|exact H]]). lia.
Qed.
Lemma set_nth_bytes l i x : byte_list l -> x < 256 -> byte_list (set_nth l i x).
Proof. intros H Hx. revert i. induction H as [|y l Hy H IH]; intros [|i]; cbn; constructor; auto. apply IH. Qed.
Lemma fold_add_bytes l : forall block, byte_list block -> byte_list (fold_left add_bit l block).
Proof.
  induction l as [|rt l IH]; intros block H; [exact H|]. cbn [fold_left]. apply IH. unfold add_bit. apply set_nth_bytes; [exact H|]. apply lor_byte.
  set (i := N.to_nat _). destruct (Nat.lt_ge_cases i (length block)) as [L|L]; [|rewrite nth_overflow by exact L; reflexivity].
  unfold byte_list in H. rewrite Forall_forall in H. apply H, nth_In, L.
Qed.
Lemma window_pair_bytes w codes : byte_list (snd (window_pair w codes)).
Proof.
  unfold window_pair, block_of. cbn [snd]. assert (byte_list (fold_left add_bit codes zero_block)) as B; [apply fold_add_bytes|
    rewrite <- (firstn_skipn (S (N.to_nat (last_index codes)))) in B; apply Forall_app in B; apply B]. unfold zero_block. apply Forall_forall. intros x I. apply repeat_spec in I. subst. reflexivity.
Qed.
Lemma window_pair_octets w codes : window_octets (window_pair w codes) = window w codes.
Proof.
  unfold window_octets. rewrite window_pair_length. unfold window_pair, window. cbn [fst snd app].
  replace (N.of_nat (S (N.to_nat (last_index codes)))) with (last_index codes + 1) by lia. reflexivity.
Qed.
Lemma window_pair_bits w codes p : incr codes -> Forall (fun x => 256 * w <= x < 256 * w + 256) codes ->
  bit_set (snd (window_pair w codes)) p <-> In (256 * w + p) codes.
Proof.
  intros I F. rewrite bit_set_positions. unfold window_pair. cbn [snd]. rewrite (window_positions w codes I F), in_map_iff. rewrite Forall_forall in F. split.
  - intros (x & E & Ix). specialize (F _ Ix). replace (256 * w + p) with x by lia. exact Ix.
  - intros Ix. pose proof (F _ Ix). exists (256 * w + p). split; [lia|exact Ix].
Qed.
Lemma window_pair_last w codes : incr codes -> Forall (fun x => 256 * w <= x < 256 * w + 256) codes -> codes <> [] -> last (snd (window_pair w codes)) 0 <> 0.
Proof.
  intros I F NE Z. destruct (exists_last NE) as (l & x & ->).
  assert (B : bit_set (snd (window_pair w (l ++ [x]))) (x - 256 * w)).
  { apply window_pair_bits; [exact I|exact F|]. apply Forall_app in F. destruct F as (_ & F). inversion F; subst. apply in_or_app. right. left. lia. }
  assert (LI : last_index (l ++ [x]) = (x - 256 * w) / 8).
  { unfold last_index. rewrite last_last. apply Forall_app in F. destruct F as (_ & F). inversion F; subst. lia. }
  destruct B as (o & E & T). pose proof (window_pair_length w (l ++ [x])) as L.
  destruct (snd (window_pair w (l ++ [x]))) as [|b bm _] using rev_ind; [discriminate|]. rewrite last_last in Z. rewrite app_length in L. cbn [length] in L.
  rewrite nth_error_app2 in E by lia. replace (N.to_nat ((x - 256 * w) / 8) - length bm)%nat with 0%nat in E by lia. injection E as <-. rewrite Z, N.bits_0 in T. discriminate.
Qed.
Definition set_windows (lo hi : list rtype) : list (N * bytes) :=
  window_pair 0 (map rtype_code lo) :: match hi with [] => [] | _ => [window_pair 1 (map rtype_code hi)] end.
Lemma types_windows c ts : sorted_by rtype_code ts -> exists ws,
  types_to_bytes c ts = Ok (flat_map window_octets ws) /\ types_byte_size c ts = Ok (length (flat_map window_octets ws)) /\
  windows_ok ws /\ (forall n, marked ws n <-> exists t, In t ts /\ rtype_code t = n) /\
  (windows_minimal ws <-> exists t, In t ts /\ rtype_code t < 256) /\
  (Forall (fun x => snd x = [0] \/ last (snd x) 0 <> 0) ws).
Proof.
  intros S. destruct (sorted_split ts S) as (lo & hi & -> & Hlo & Hhi). exists (set_windows lo hi).
  pose proof S as S2. apply sorted_by_app in S2. destruct S2 as (Slo & Shi & _). apply sorted_by_incr in Slo, Shi.
  assert (Rlo : Forall (fun x => 256 * 0 <= x < 256 * 0 + 256) (map rtype_code lo)) by (rewrite Forall_map; eapply Forall_impl; [|exact Hlo]; cbn beta; intros; lia).
  assert (Rhi : Forall (fun x => 256 * 1 <= x < 256 * 1 + 256) (map rtype_code hi)) by (rewrite Forall_map; eapply Forall_impl; [|exact Hhi]; cbn beta; intros; lia).
  assert (EQ : flat_map window_octets (set_windows lo hi) = window 0 (map rtype_code lo) ++ match hi with [] => [] | _ => window 1 (map rtype_code hi) end).
  { unfold set_windows. cbn [flat_map]. rewrite window_pair_octets. f_equal. destruct hi; [reflexivity|]. cbn [flat_map]. rewrite window_pair_octets. apply app_nil_r. }
  rewrite EQ. split; [apply types_to_bytes_eq; assumption|]. split.
  { rewrite types_byte_size_eq by assumption. reflexivity. }
  assert (LB : forall w codes, (1 <= length (snd (window_pair w codes)) <= 32)%nat /\ byte_list (snd (window_pair w codes))).
  { intros w codes. split; [|apply window_pair_bytes]. rewrite window_pair_length. assert (last_index codes < 32) by (apply N.mod_lt; lia). lia. }
  split; [|split; [|split]].
  - unfold set_windows, windows_ok. destruct hi as [|t hi]; cbn [map fst].
    + split; [repeat constructor|]. constructor; [split; [reflexivity|apply LB]|constructor].
    + split; [repeat constructor|]. constructor; [split; [reflexivity|apply LB]|]. constructor; [split; [reflexivity|apply LB]|constructor].
  - intros n. unfold marked, set_windows. split.
    + intros (x & p & [<-|Ix] & B & ->).
      * apply window_pair_bits in B; [|assumption..]. cbn [fst window_pair]. apply in_map_iff in B. destruct B as (t & E & It). exists t. split; [apply in_or_app; auto|exact E].
      * destruct hi as [|t0 hi]; [destruct Ix|]. destruct Ix as [<-|[]]. apply window_pair_bits in B; [|assumption..]. cbn [fst window_pair].
        apply in_map_iff in B. destruct B as (t & E & It). exists t. split; [apply in_or_app; auto|exact E].
    + intros (t & It & <-). apply in_app_or in It. destruct It as [It|It].
      * exists (window_pair 0 (map rtype_code lo)), (rtype_code t). split; [left; reflexivity|]. split; [|cbn [fst window_pair]; lia].
        apply window_pair_bits; [assumption..|]. rewrite N.mul_0_r, N.add_0_l. apply in_map, It.
      * destruct hi as [|t0 hi]; [destruct It|]. exists (window_pair 1 (map rtype_code (t0 :: hi))), (rtype_code t - 256). rewrite Forall_forall in Hhi. specialize (Hhi _ It).
        split; [right; left; reflexivity|]. split; [|cbn [fst window_pair]; lia]. apply window_pair_bits; [assumption..|].
        replace (256 * 1 + (rtype_code t - 256)) with (rtype_code t) by lia. apply in_map, It.
  - unfold windows_minimal, set_windows. split.
    + intros F. inversion F as [|? ? H _]; subst. destruct lo as [|t lo]; [exfalso; apply H; reflexivity|]. inversion Hlo; subst. exists t. split; [left; reflexivity|lia].
    + intros (t & It & Lt). assert (lo <> []).
      { intros ->. cbn [app] in It. rewrite Forall_forall in Hhi. specialize (Hhi _ It). lia. }
      constructor; [apply window_pair_last; [assumption..|]; destruct lo; [contradiction|discriminate]|].
      destruct hi as [|t0 hi]; [constructor|]. constructor; [apply window_pair_last; [assumption..|discriminate]|constructor].
  - unfold set_windows. constructor.
    + destruct lo as [|t lo]; [left; reflexivity|]. right. apply window_pair_last; [assumption..|discriminate].
    + destruct hi as [|t0 hi]; [constructor|]. constructor; [|constructor]. right. apply window_pair_last; [assumption..|discriminate].
Qed.

(** ** NSEC and CSYNC records *)
Lemma nsec_bytes c x : tset_typed c (ns_types x) -> exists ws,
  nsec_to_bytes c x = Ok (fqdn_to_bytes (ns_next x) ++ flat_map window_octets ws) /\
  nsec_byte_size c x = Ok (length (fqdn_to_bytes (ns_next x) ++ flat_map window_octets ws)) /\
  windows_ok ws /\ (forall n, marked ws n <-> exists t, In t (ns_types x) /\ rtype_code t = n) /\
  (windows_minimal ws <-> exists t, In t (ns_types x) /\ rtype_code t < 256).
Proof.
  intros (S & _). destruct (types_windows c _ S) as (ws & E1 & E2 & H1 & H2 & H3 & _). exists ws. unfold nsec_to_bytes, nsec_byte_size. rewrite E1, E2. cbn [rbind].
  rewrite app_length, <- fqdn_byte_size_eq. auto.
Qed.
Lemma csync_bytes c x : tset_typed c (cs_types x) -> exists ws,
  csync_to_bytes c x = Ok (be 4 (cs_serial x) ++ be 2 (cs_flags x) ++ flat_map window_octets ws) /\
  csync_byte_size c x = Ok (6 + length (flat_map window_octets ws))%nat /\
  windows_ok ws /\ (forall n, marked ws n <-> exists t, In t (cs_types x) /\ rtype_code t = n) /\
  (windows_minimal ws <-> exists t, In t (cs_types x) /\ rtype_code t < 256).
Proof.
  intros (S & _). destruct (types_windows c _ S) as (ws & E1 & E2 & H1 & H2 & H3 & _). exists ws. unfold csync_to_bytes, csync_byte_size. rewrite E1, E2. cbn [rbind]. auto.
Qed.
Lemma nsec_iff c d q x b : byte_list d -> (q <= length d)%nat -> nsec_try_from c (mkbuf d q) = (Ok x, b) <->
  exists k ws, name_at d 191 q (ns_next x) k /\ windows_at d k ws /\ (forall n, marked ws n -> exists t, bit_means c n t) /\
    sorted_by rtype_code (ns_types x) /\ (forall t, In t (ns_types x) <-> exists n, marked ws n /\ bit_means c n t) /\ b = mkbuf d (length d).
Proof.
  intros B L. unfold nsec_try_from. split.
  - intros E. apply bind_iff in E. destruct E as (f & b1 & E1 & E). pose proof (fqdn_end _ _ _ _ B L E1) as (_ & P). apply name_got in E1; [|assumption..].
    destruct E1 as (k & NA & ->). cbn [pos] in P. apply bind_iff in E. destruct E as (ts & b1 & E1 & E). cbn [ret] in E. injection E as <- <-.
    apply types_iff in E1; [|exact B|lia]. destruct E1 as (ws & H). exists k, ws. cbn [ns_next ns_types]. tauto.
  - intros (k & ws & NA & H). assert (Lk : (k <= length d)%nat) by (destruct H as (C & _); apply (consecutive_start _ _ _ _ C)).
    apply bind_iff. exists (ns_next x), (mkbuf d k). split; [apply (extract_fqdn_iff d q _ _ B); exact NA|].
    apply bind_iff. exists (ns_types x), b. split; [apply types_iff; [exact B|exact Lk|]; exists ws; tauto|destruct x; reflexivity].
Qed.
Lemma csync_iff c d q x b : byte_list d -> (q <= length d)%nat -> csync_try_from c (mkbuf d q) = (Ok x, b) <->
  exists ws, number_at d q 4 (cs_serial x) /\ u16_at d (q + 4) (cs_flags x) /\ cs_flags x < 4 /\ windows_at d (q + 6) ws /\ (forall n, marked ws n -> exists t, bit_means c n t) /\
    sorted_by rtype_code (cs_types x) /\ (forall t, In t (cs_types x) <-> exists n, marked ws n /\ bit_means c n t) /\ b = mkbuf d (length d).
Proof.
  intros B L. destruct csync_faithful as (F1 & F2 & _). unfold csync_try_from. split.
  - intros E. apply bind_iff in E. destruct E as (s & b1 & E1 & E). apply number_iff in E1. destruct E1 as (V & ->).
    apply bind_iff in E. destruct E as (f & b1 & E1 & E). apply u16_as_iff in E1; [|exact B]. destruct E1 as (n & U & F & ->). pose proof (u16_at_end _ _ _ U) as LU.
    replace (q + 4 + 2)%nat with (q + 6)%nat in * by lia. apply bind_iff in E. destruct E as (ts & b1 & E1 & E). cbn [ret] in E. injection E as <- <-.
    apply types_iff in E1; [|exact B|lia]. destruct E1 as (ws & H). exists ws. cbn [cs_serial cs_flags cs_types].
    destruct (F2 n f (u16_at_lt _ _ _ U) F) as (-> & F4). tauto.
  - intros (ws & V & U & F & H). pose proof (u16_at_end _ _ _ U) as LU.
    apply bind_iff. exists (cs_serial x), (mkbuf d (q + 4)). split; [apply number_iff; split; [exact V|reflexivity]|].
    apply bind_iff. exists (cs_flags x), (mkbuf d (q + 4 + 2)). split; [apply u16_as_iff; [exact B|]; exists (cs_flags x); repeat split; [exact U|apply F1, F]|].
    replace (q + 4 + 2)%nat with (q + 6)%nat by lia.
    apply bind_iff. exists (cs_types x), b. split; [apply types_iff; [exact B|lia|]; exists ws; tauto|destruct x; reflexivity].
Qed.
(** ** OPT records *)
Lemma opt_any_order c pre m m' : NoDup (map fst m) -> Forall (fun e => U16 (fst e)) m -> Forall (fun e => short16 (snd e)) m -> Permutation m m' ->
  exists r b, rdata_from c OPT (mkbuf (pre ++ opt_to_bytes m') (length pre)) = (Ok (DOPT r), b) /\ Permutation r m.
Proof.
  intros ND F1 F2 P. exists m'. eexists. split; [|symmetry; exact P].
  assert (R : reads pre [] opt_try_from (opt_to_bytes m') m').
  { apply reads_opt; [eapply Permutation_NoDup; [apply Permutation_map, P|exact ND]|eapply Permutation_Forall; [exact P|exact F1]|eapply Permutation_Forall; [exact P|exact F2]]. }
  unfold reads in R. rewrite app_nil_r in R. cbn [rdata_from]. unfold pmap, bind. rewrite R. reflexivity.
Qed.
