(** * Property C117: records stored one behind the other, and a crash while storing *)
From Coq Require Import Lia ZifyBool ZifyNat ZifyN.
From Verif Require Import Base Buffer Fqdn Header Types RDataBasic Svcb RDataSec RData Packet BaseFacts BufferFacts NameSpec FqdnLoop FqdnFacts CodeSpec CodeFacts HeaderSpec RDataSpec RDataReads RecordSpec
  RDataFacts RecordFacts PropName PropRecord PropPacket PropStream.

(** ** What a user writes

    A program keeps records in a file, each as [to_bytes] gives it, and reads them back when it starts.  It is not in the repository; all it calls is public
    (lib.rs:3-11). *)
(** [while buffer.remaining() > 0 { match ResourceRecord::try_from(&mut buffer) { Ok(r) => v.push(r), Err(_) => break } }].  Every record takes octets, so
    the fuel given in [restored] is enough. *)
Fixpoint restored_from (c : cfg) (fuel : nat) (b : buf) : res (list rr) :=
  if (remaining b =? 0)%nat then Ok []
  else match fuel with
       | O => Diverge
       | S f => match rr_try_from c b with
                | (Ok r, b') => rmap (cons r) (restored_from c f b')
                | (Err _, _) => Ok []
                | (Panic, _) => Panic
                | (Diverge, _) => Diverge
                end
       end.
Definition restored (c : cfg) (file : bytes) : res (list rr) := restored_from c (length file) (buf_from file).

(** ** Where a crash does harm *)
(** The octets a list of labels takes, the length octets among them. *)
Definition octets_of (ls : list bytes) : nat := fold_right (fun l n => (1 + length l + n)%nat) 0%nat ls.
(** [n] octets of a name end behind one of its labels, or one octet before. *)
Definition edge (f : fqdn) (n : nat) : Prop :=
  exists ls rest, f = ls ++ rest /\ ls <> [] /\ (n = octets_of ls \/ S n = octets_of ls).

Lemma pref {A} (a b t rest : list A) : a ++ b = t ++ rest -> (length a <= length t)%nat -> exists t', t = a ++ t' /\ b = t' ++ rest.
Proof.
  revert t. induction a as [|x a IH]; intros t E L; [exists t; split; [reflexivity|exact E]|].
  destruct t as [|y t]; cbn [length] in L; [lia|]. injection E as -> E. destruct (IH t E) as (t' & -> & E'); [lia|]. exists t'. split; [reflexivity|exact E'].
Qed.
Lemma edge_cons l f n : label_ok l -> (S (length l) <= n)%nat -> (edge (l :: f) n <-> n = S (length l) \/ edge f (n - S (length l))).
Proof.
  intros Lo L. split.
  - intros (ls & rest & E & NE & H). destruct ls as [|x ls]; [congruence|]. injection E as -> ->. cbn [octets_of fold_right] in H. fold (octets_of ls) in H.
    destruct ls as [|y ls]; [left; cbn in H; lia|]. right. exists (y :: ls), rest. split; [reflexivity|]. split; [discriminate|lia].
  - intros [->|(ls & rest & -> & NE & H)].
    + exists [l], f. split; [reflexivity|]. split; [discriminate|]. left. cbn. lia.
    + exists (l :: ls), rest. split; [reflexivity|]. split; [discriminate|]. cbn [octets_of fold_right]. fold (octets_of ls). lia.
Qed.
Lemma edge_short l f n : (n < S (length l))%nat -> (edge (l :: f) n <-> n = length l).
Proof.
  intros L. split.
  - intros (ls & rest & E & NE & H). destruct ls as [|x ls]; [congruence|]. injection E as -> ->. cbn [octets_of fold_right] in H. fold (octets_of ls) in H. lia.
  - intros ->. exists [l], f. split; [reflexivity|]. split; [discriminate|]. right. cbn. lia.
Qed.

(** A name of which only the beginning is there: the loop of [extract_fqdn]. *)
Lemma loop_cut f : fqdn_ok f -> forall fuel pre t rest acc, flat_map label_bytes f ++ [0] = t ++ rest -> rest <> [] -> (length t < fuel)%nat ->
  ((t = [] \/ edge f (length t)) -> fst (fqdn_loop (pre ++ t) fuel acc None (length pre)) = Panic) /\
  (~ (t = [] \/ edge f (length t)) -> fst (fqdn_loop (pre ++ t) fuel acc None (length pre)) = Err LengthViolation).
Proof.
  induction 1 as [|l f Lo F IH]; intros fuel pre t rest acc E NE L; (destruct fuel as [|fuel]; [lia|]).
  - cbn [flat_map app] in E. destruct t as [|x t].
    + split; [|tauto]. intros _. cbn [fqdn_loop]. rewrite app_nil_r. assert (X : nth_error pre (length pre) = None) by (apply nth_error_None; lia). rewrite X. reflexivity.
    + exfalso. injection E as _ E. destruct t; [destruct rest; [congruence|discriminate]|discriminate].
  - destruct t as [|x t].
    { split; [|tauto]. intros _. cbn [fqdn_loop]. rewrite app_nil_r. assert (X : nth_error pre (length pre) = None) by (apply nth_error_None; lia). rewrite X. reflexivity. }
    cbn [flat_map] in E. unfold label_bytes at 1 in E. cbn [app] in E. injection E as <- E.
    unfold label_ok in Lo. assert (V : len8 (length l) = N.of_nat (length l)) by (apply len8_id; lia). rewrite V.
    assert (Y : (N.of_nat (length l) :: t = [] \/ edge (l :: f) (length (N.of_nat (length l) :: t))) <-> edge (l :: f) (S (length t))).
    { cbn [length]. split; [intros [?|?]; [discriminate|assumption]|tauto]. }
    rewrite Y. clear Y. cbn [fqdn_loop].
    assert (X : nth_error (pre ++ N.of_nat (length l) :: t) (length pre) = Some (N.of_nat (length l))) by (rewrite nth_error_app2, Nat.sub_diag by lia; reflexivity).
    rewrite X, mask_byte by lia. destruct (N.leb_spec 192 (N.of_nat (length l))); [lia|]. rewrite Nat2N.id, !app_length. cbn [length].
    assert (Z : N.of_nat (length l) =? 0 = false) by (apply N.eqb_neq; lia). rewrite Z.
    destruct (Nat.ltb_spec (length pre + S (length t)) (length pre + length l)) as [K|K].
    { rewrite edge_short by lia. split; [lia|reflexivity]. }
    destruct (Nat.ltb_spec (length pre + S (length t)) (length pre + 1 + length l)) as [K'|K'].
    { rewrite edge_short by lia. split; [reflexivity|lia]. }
    rewrite edge_cons by (exact Lo || lia). rewrite <- app_assoc in E. destruct (pref _ _ _ _ E) as (t' & -> & E'); [lia|]. rewrite app_length in *.
    destruct (IH fuel (pre ++ N.of_nat (length l) :: l) t' rest (acc ++ [l]) E' NE) as [I1 I2]; [cbn [length] in L; rewrite app_length in L; lia|].
    replace (pre ++ N.of_nat (length l) :: l ++ t') with ((pre ++ N.of_nat (length l) :: l) ++ t') by (rewrite <- app_assoc; reflexivity).
    assert (W : length (pre ++ N.of_nat (length l) :: l) = (length pre + 1 + length l)%nat) by (rewrite app_length; cbn [length]; lia). rewrite W in I1, I2.
    assert (Sl : slice ((pre ++ N.of_nat (length l) :: l) ++ t') (length pre + 1) (length l) = l).
    { unfold slice. rewrite <- app_assoc. rewrite skipn_app. rewrite skipn_all2 by lia. replace (length pre + 1 - length pre)%nat with 1%nat by lia. cbn [app skipn].
      rewrite firstn_app, Nat.sub_diag. cbn [firstn]. rewrite app_nil_r. apply firstn_all. }
    rewrite Sl. replace (S (length l + length t') - S (length l))%nat with (length t') by lia.
    assert (Q : (S (length l + length t') = S (length l) \/ edge f (length t')) <-> (t' = [] \/ edge f (length t'))).
    { split; (intros [H0|H0]; [left|right; exact H0]); [destruct t'; [reflexivity|cbn [length] in H0; lia]|subst t'; cbn [length]; lia]. }
    rewrite Q. split; assumption.
Qed.
Lemma name_cut f pre t rest : fqdn_ok f -> fqdn_to_bytes f = t ++ rest -> rest <> [] ->
  ((t = [] \/ edge f (length t)) -> fst (extract_fqdn (mkbuf (pre ++ t) (length pre))) = Panic) /\
  (~ (t = [] \/ edge f (length t)) -> fst (extract_fqdn (mkbuf (pre ++ t) (length pre))) = Err LengthViolation).
Proof.
  intros F E NE. unfold extract_fqdn. cbn [data pos]. rewrite fqdn_to_bytes_eq, filter_nonempty_ok in E by assumption.
  destruct (loop_cut f F (fqdn_fuel (pre ++ t)) pre t rest [] E NE) as [H1 H2]; [unfold fqdn_fuel; rewrite app_length; lia|].
  destruct (fqdn_loop (pre ++ t) (fqdn_fuel (pre ++ t)) [] None (length pre)) as [r p]. cbn [fst] in *. split; assumption.
Qed.
Lemma octets_app a b : octets_of (a ++ b) = (octets_of a + octets_of b)%nat.
Proof. induction a as [|x a IH]; cbn [app octets_of fold_right]; [reflexivity|]. fold (octets_of (a ++ b)). fold (octets_of a). lia. Qed.
Lemma octets_bytes f : fqdn_ok f -> length (fqdn_to_bytes f) = S (octets_of f).
Proof.
  intros F. rewrite fqdn_to_bytes_eq, filter_nonempty_ok, app_length by assumption. cbn [length]. rewrite Nat.add_1_r. f_equal. clear F.
  induction f as [|l f IH]; [reflexivity|]. cbn [flat_map octets_of fold_right]. fold (octets_of f). rewrite app_length, IH. unfold label_bytes. cbn [length]. lia.
Qed.
Lemma edge_inside f n : fqdn_ok f -> edge f n -> (n < length (fqdn_to_bytes f))%nat.
Proof. intros F (ls & rest & -> & _ & H). rewrite octets_bytes by exact F. rewrite octets_app. lia. Qed.
Lemma bytes_cut pre t n : (length t < n)%nat -> extract_bytes n (mkbuf (pre ++ t) (length pre)) = (Err LengthViolation, mkbuf (pre ++ t) (length pre)).
Proof. intros L. unfold extract_bytes. cbn [data pos]. rewrite app_length. destruct (Nat.ltb_spec (length pre + length t) (length pre + n)); [reflexivity|lia]. Qed.
Lemma u16_cut pre t : (length t < 2)%nat -> extract_u16 (mkbuf (pre ++ t) (length pre)) = (Err LengthViolation, mkbuf (pre ++ t) (length pre)).
Proof. intros L. unfold extract_u16, bind. rewrite bytes_cut by exact L. reflexivity. Qed.
(** Reading goes on behind what is there. *)
Lemma goes_on {X Y} (p : P X) (k : X -> P Y) pre a x t : (forall suf, reads pre suf p a x) -> bind p k (mkbuf (pre ++ a ++ t) (length pre)) = k x (mkbuf ((pre ++ a) ++ t) (length (pre ++ a))).
Proof. intros R. unfold bind. specialize (R t). unfold reads in R. rewrite R, app_length, <- app_assoc. reflexivity. Qed.
Lemma record_cut c r pre t rest : rr_plain_ok c r -> rr_to_bytes c r = Ok (t ++ rest) -> rest <> [] -> t <> [] ->
  (edge (rr_name r) (length t) -> fst (rr_try_from c (mkbuf (pre ++ t) (length pre))) = Panic) /\
  (~ edge (rr_name r) (length t) -> exists e, fst (rr_try_from c (mkbuf (pre ++ t) (length pre))) = Err e).
Proof.
  intros ((H & T & F) & S & B) E NE NT. destruct (rr_bytes_eq c r T (rdata_fits_writable c _ F)) as (n & db & En & Eb & E').
  rewrite E' in E. apply Ok_inj in E. clear E'. specialize (B db Eb).
  assert (Fn : fqdn_ok (rr_name r)) by apply H. unfold rr_try_from.
  destruct (Nat.le_gt_cases (length (fqdn_to_bytes (rr_name r))) (length t)) as [L|L].
  - split; [intros X; apply (edge_inside _ _ Fn) in X; lia|]. intros _. apply pref in E as (t1 & -> & E); [|exact L].
    rewrite (goes_on extract_fqdn _ pre _ (rr_name r) t1); [|intros; apply reads_fqdn, Fn]. set (p1 := pre ++ fqdn_to_bytes (rr_name r)).
    destruct H as (_ & D & _). clearbody p1.
    destruct (Nat.ltb_spec (length t1) 2) as [L1|L1]; [unfold bind at 1; unfold extract_u16_as; unfold bind at 1; rewrite u16_cut by exact L1; eexists; reflexivity|].
    apply pref in E as (t2 & -> & E); [|rewrite be_length; exact L1]. rewrite (goes_on (extract_u16_as _) _ p1 _ (rr_type r) t2); [|intros; apply (reads_u16_dom _ _ _ _ _ _ _ (rtype_faithful c) D)].
    set (p2 := p1 ++ be 2 (rtype_code (rr_type r))). clearbody p2.
    destruct (Nat.ltb_spec (length t2) 2) as [L2|L2]; [unfold bind at 1; rewrite u16_cut by exact L2; eexists; reflexivity|].
    apply pref in E as (t3 & -> & E); [|rewrite be_length; exact L2]. rewrite (goes_on extract_u16 _ p2 _ (unbe (be 2 (rr_class_field c r))) t3).
    2: { intros suf. eapply reads_ext; [reflexivity|reflexivity|]. apply reads_bind_ret, reads_bytes, be_length. }
    set (p3 := p2 ++ be 2 (rr_class_field c r)). clearbody p3.
    destruct (Nat.ltb_spec (length t3) 4) as [L3|L3]; [unfold bind at 1; rewrite bytes_cut by exact L3; eexists; reflexivity|].
    apply pref in E as (t4 & -> & E); [|rewrite be_length; exact L3]. rewrite (goes_on (extract_bytes 4) _ p3 _ (be 4 (rr_ttl r)) t4); [|intros; apply reads_bytes, be_length].
    set (p4 := p3 ++ be 4 (rr_ttl r)). clearbody p4.
    destruct (Nat.ltb_spec (length t4) 2) as [L4|L4]; [unfold bind at 1; rewrite u16_cut by exact L4; eexists; reflexivity|].
    apply (rdata_size_exact c _ db T Eb) in S. rewrite S in En. injection En as <-. rewrite len16_id in E by lia.
    apply pref in E as (t5 & -> & E); [|rewrite be_length; exact L4]. rewrite (goes_on extract_u16 _ p4 _ (N.of_nat (length db)) t5); [|intros; apply reads_u16; lia].
    set (p5 := p4 ++ be 2 (N.of_nat (length db))). clearbody p5. unfold bind at 1. unfold framed, sub_buffer. cbn [data pos]. rewrite E, !app_length, Nat2N.id.
    assert (length rest <> 0)%nat by (destruct rest; [congruence|discriminate]).
    destruct (Nat.ltb_spec (length p5 + length t5) (length p5 + (length t5 + length rest))); [|lia]. eexists. reflexivity.
  - assert (NC : fqdn_to_bytes (rr_name r) = t ++ skipn (length t) (fqdn_to_bytes (rr_name r)) /\ skipn (length t) (fqdn_to_bytes (rr_name r)) <> []).
    { symmetry in E. destruct (pref _ _ _ _ E) as (t' & E1 & E2); [lia|]. rewrite E1. rewrite skipn_app, skipn_all, Nat.sub_diag. split; [reflexivity|].
      cbn. rewrite E1, app_length in L. destruct t'; [cbn in L; lia|discriminate]. }
    destruct NC as (E1 & NE1). destruct (name_cut _ pre t _ Fn E1 NE1) as [H1 H2].
    destruct (extract_fqdn (mkbuf (pre ++ t) (length pre))) as [x b] eqn:Ex. cbn [fst] in H1, H2. split.
    + intros K. unfold bind at 1. rewrite Ex, H1 by auto. reflexivity.
    + intros K. unfold bind at 1. rewrite Ex, H2 by tauto. eexists. reflexivity.
Qed.

Lemma split_at {A} (ds : list (list A)) k : (k < length (concat ds))%nat -> exists ds1 d ds2 t rest, ds = ds1 ++ d :: ds2 /\ d = t ++ rest /\ rest <> [] /\ firstn k (concat ds) = concat ds1 ++ t.
Proof.
  revert k. induction ds as [|d ds IH]; intros k L; [cbn in L; lia|]. cbn [concat] in L |- *. rewrite app_length in L.
  destruct (Nat.ltb_spec k (length d)) as [K|K].
  - exists [], d, ds, (firstn k d), (skipn k d). split; [reflexivity|]. split; [symmetry; apply firstn_skipn|]. split.
    + intros X. apply (f_equal (@length _)) in X. rewrite skipn_length in X. cbn in X. lia.
    + rewrite firstn_app. replace (k - length d)%nat with 0%nat by lia. cbn [firstn concat]. rewrite app_nil_r. reflexivity.
  - destruct (IH (k - length d)%nat) as (ds1 & d' & ds2 & t & rest & -> & -> & NE & E); [lia|]. exists (d :: ds1), (t ++ rest), ds2, t, rest.
    split; [reflexivity|]. split; [reflexivity|]. split; [exact NE|]. rewrite firstn_app, firstn_all2 by lia. rewrite E. cbn [concat]. rewrite app_assoc. reflexivity.
Qed.
Lemma restored_before c rs ds : Forall (rr_plain_ok c) rs -> Forall2 (fun r d => rr_to_bytes c r = Ok d) rs ds -> forall fuel pre t, (length (concat ds) + length t <= fuel)%nat ->
  exists fuel', (length t <= fuel')%nat /\
  restored_from c fuel (mkbuf (pre ++ concat ds ++ t) (length pre)) = rmap (app rs) (restored_from c fuel' (mkbuf ((pre ++ concat ds) ++ t) (length (pre ++ concat ds)))).
Proof.
  intros F F2. revert F. induction F2 as [|r d rs ds E F2 IH]; intros F fuel pre t L.
  - exists fuel. cbn [concat app length] in *. rewrite app_nil_r. split; [lia|]. destruct (restored_from c fuel (mkbuf (pre ++ t) (length pre))); reflexivity.
  - inversion F as [|? ? O F']; subst. destruct (reads_rr c r O) as (d' & E' & R). rewrite E in E'. apply Ok_inj in E' as <-.
    assert (D : (0 < length d)%nat).
    { destruct O as ((H & T & Ft) & _). destruct (rr_bytes_eq c r T (rdata_fits_writable c _ Ft)) as (n & db & _ & _ & X). rewrite E in X. apply Ok_inj in X. rewrite X, !app_length.
      pose proof (fqdn_to_bytes_pos (rr_name r)). lia. }
    cbn [concat] in *. rewrite app_length in L. destruct fuel as [|fuel]; [lia|]. cbn [restored_from].
    assert (Z : (remaining (mkbuf (pre ++ (d ++ concat ds) ++ t) (length pre)) =? 0)%nat = false) by (unfold remaining; cbn [data pos]; rewrite !app_length; apply Nat.eqb_neq; lia). rewrite Z.
    specialize (R pre (concat ds ++ t)). unfold reads in R. rewrite (app_assoc pre d (concat ds)). rewrite <- (app_assoc d). rewrite R.
    destruct (IH F' fuel (pre ++ d) t) as (fuel' & Lf & X); [lia|]. exists fuel'. split; [exact Lf|]. rewrite <- (app_assoc pre d (concat ds ++ t)) in X. rewrite (app_length pre d) in X. rewrite X.
    match goal with |- context [restored_from c fuel' ?b] => destruct (restored_from c fuel' b) end; reflexivity.
Qed.

Lemma Forall2_parts {A B} (P : A -> B -> Prop) xs ys1 y ys2 : Forall2 P xs (ys1 ++ y :: ys2) -> exists xs1 x xs2, xs = xs1 ++ x :: xs2 /\ Forall2 P xs1 ys1 /\ P x y /\ Forall2 P xs2 ys2.
Proof.
  revert xs. induction ys1 as [|z ys1 IH]; intros xs H; inversion H as [|x ? xs' ? Hx Hs]; subst.
  - exists [], x, xs'. auto.
  - destruct (IH _ Hs) as (xs1 & x' & xs2 & -> & H1 & H2 & H3). exists (x :: xs1), x', xs2. auto.
Qed.
Lemma edge_0 f : fqdn_ok f -> ~ edge f 0.
Proof.
  intros F (ls & rest & -> & NE & H). destruct ls as [|l ls]; [congruence|]. cbn [app] in F. inversion F as [|? ? Lo ?]; subst. unfold label_ok in Lo. cbn [octets_of fold_right] in H. lia.
Qed.

(** ** The property *)
(** Without a crash all records come back. *)
Theorem C117_whole : forall (c : cfg) (rs : list rr) (ds : list bytes), Forall (rr_plain_ok c) rs -> Forall2 (fun r d => rr_to_bytes c r = Ok d) rs ds -> restored c (concat ds) = Ok rs.
Proof.
  intros c rs ds F F2. destruct (restored_before c rs ds F F2 (length (concat ds)) [] []) as (fuel' & _ & X); [cbn [length]; lia|].
  unfold restored, buf_from. cbn [app length] in X. rewrite !app_nil_r in X. rewrite X.
  assert (Z : restored_from c fuel' (mkbuf (concat ds) (length (concat ds))) = Ok []) by (destruct fuel'; cbn [restored_from]; unfold remaining; cbn [data pos]; rewrite Nat.sub_diag; reflexivity).
  rewrite Z. cbn [rmap rbind]. rewrite app_nil_r. reflexivity.
Qed.
Print Assumptions C117_whole.

(** A crash leaves the first [k] octets: some whole records and the beginning [t] of the next.  The whole records come back, and nothing else, unless [t] ends behind a label of the name of
    the unfinished record, or one octet before the end of a label; then reading panics. *)
Theorem C117_crash_partial : forall (c : cfg) (rs : list rr) (ds : list bytes) (k : nat), Forall (rr_plain_ok c) rs -> Forall2 (fun r d => rr_to_bytes c r = Ok d) rs ds ->
  (k < length (concat ds))%nat ->
  exists before r after ds1 t rest, rs = before ++ r :: after /\ Forall2 (fun r d => rr_to_bytes c r = Ok d) before ds1 /\ rr_to_bytes c r = Ok (t ++ rest) /\ rest <> [] /\
    firstn k (concat ds) = concat ds1 ++ t /\
    (edge (rr_name r) (length t) -> restored c (firstn k (concat ds)) = Panic) /\
    (~ edge (rr_name r) (length t) -> restored c (firstn k (concat ds)) = Ok before).
Proof.
  intros c rs ds k F F2 L. destruct (split_at ds k L) as (ds1 & d & ds2 & t & rest & -> & -> & NE & E). apply Forall2_parts in F2 as (before & r & after & -> & F1 & Er & _).
  exists before, r, after, ds1, t, rest. repeat (split; [reflexivity || assumption|]). rewrite E. apply Forall_app in F as [Fb Fr]. inversion Fr as [|? ? O _]; subst.
  destruct (restored_before c before ds1 Fb F1 (length (concat ds1 ++ t)) [] t) as (fuel' & Lf & X); [rewrite app_length; lia|].
  unfold restored, buf_from. cbn [app length] in X. rewrite X. assert (Fn : fqdn_ok (rr_name r)) by apply O. clear X.
  destruct t as [|x t].
  - split; [intros K; destruct (edge_0 _ Fn K)|]. intros _. rewrite app_nil_r.
    assert (Z : restored_from c fuel' (mkbuf (concat ds1) (length (concat ds1))) = Ok []) by (destruct fuel'; cbn [restored_from]; unfold remaining; cbn [data pos]; rewrite Nat.sub_diag; reflexivity).
    rewrite Z. cbn [rmap rbind]. rewrite app_nil_r. reflexivity.
  - destruct (record_cut c r (concat ds1) (x :: t) rest O Er NE ltac:(discriminate)) as [R1 R2]. destruct fuel' as [|fuel']; [cbn in Lf; lia|]. cbn [restored_from].
    assert (Z : (remaining (mkbuf (concat ds1 ++ x :: t) (length (concat ds1))) =? 0)%nat = false) by (unfold remaining; cbn [data pos]; rewrite app_length; cbn [length]; apply Nat.eqb_neq; lia).
    rewrite Z. destruct (rr_try_from c (mkbuf (concat ds1 ++ x :: t) (length (concat ds1)))) as [y b]. cbn [fst] in R1, R2. split; intros K.
    + rewrite (R1 K). reflexivity.
    + destruct (R2 K) as (e & ->). cbn [rmap rbind]. rewrite app_nil_r. reflexivity.
Qed.
Print Assumptions C117_crash_partial.

(** So for every record whose name is not the root there is a moment at which a crash makes the file unreadable: the program that reads it panics, whatever was stored before. *)
Theorem C117_panic_refuted : forall (c : cfg) (before : list rr) (r : rr) (ds : list bytes) (d : bytes), Forall (rr_plain_ok c) (before ++ [r]) -> rr_name r <> [] ->
  Forall2 (fun r d => rr_to_bytes c r = Ok d) before ds -> rr_to_bytes c r = Ok d -> exists k, (k < length d)%nat /\ restored c (concat ds ++ firstn k d) = Panic.
Proof.
  intros c before r ds d F NE F2 E. destruct (rr_name r) as [|l f] eqn:Er; [congruence|]. clear NE.
  assert (O : rr_plain_ok c r) by (apply Forall_app in F as [_ F]; inversion F; assumption).
  assert (Fn : fqdn_ok (l :: f)) by (rewrite <- Er; apply O). exists (length l). inversion Fn as [|? ? Lo Fn']; subst. unfold label_ok in Lo.
  assert (Ld : (length l < length d)%nat).
  { destruct O as ((_ & T & Ft) & _). destruct (rr_bytes_eq c r T (rdata_fits_writable c _ Ft)) as (n & db & _ & _ & X). rewrite E in X. apply Ok_inj in X. rewrite X, app_length, Er, octets_bytes by exact Fn.
    cbn [octets_of fold_right]. lia. }
  split; [exact Ld|].
  assert (Lt : length (firstn (length l) d) = length l) by (rewrite firstn_length; lia).
  destruct (restored_before c before ds (proj1 (proj1 (Forall_app _ _ _) F)) F2 (length (concat ds ++ firstn (length l) d)) [] (firstn (length l) d)) as (fuel' & Lf & X); [rewrite app_length; lia|].
  unfold restored, buf_from. cbn [app length] in X. rewrite X. clear X.
  assert (NR : skipn (length l) d <> []). { intros X. apply (f_equal (@length _)) in X. rewrite skipn_length in X. cbn in X. lia. }
  assert (NT : firstn (length l) d <> []). { intros X. rewrite X in Lt. cbn in Lt. lia. }
  destruct (record_cut c r (concat ds) (firstn (length l) d) (skipn (length l) d) O) as [R1 _]; [rewrite firstn_skipn; exact E|exact NR|exact NT|].
  rewrite Er, Lt in R1. rewrite Lt in Lf. destruct fuel' as [|fuel']; [lia|]. cbn [restored_from].
  assert (Z : (remaining (mkbuf (concat ds ++ firstn (length l) d) (length (concat ds))) =? 0)%nat = false) by (unfold remaining; cbn [data pos]; rewrite app_length, Lt; apply Nat.eqb_neq; lia).
  rewrite Z. destruct (rr_try_from c (mkbuf (concat ds ++ firstn (length l) d) (length (concat ds)))) as [y b]. cbn [fst] in R1.
  rewrite R1; [reflexivity|]. apply edge_short; lia.
Qed.
Print Assumptions C117_panic_refuted.

(** A program that goes on storing behind the torn record makes records of its own: here the address of "a" becomes the first octets of the next record, and the address of "www" is
    said to be that of the root. *)
Definition torn_a : rr := mkRR [[97]] A false CIN 60 (DA 167772161).
Definition next_www : rr := mkRR [[119; 119; 119]] A false CIN 60 (DA 167772162).
Theorem C117_behind_refuted : forall c : cfg, exists t rest d, rr_to_bytes c torn_a = Ok (t ++ rest) /\ rest <> [] /\ rr_to_bytes c next_www = Ok d /\
  restored c (t ++ d) = Ok [mkRR [[97]] A false CIN 60 (DA 58161015); mkRR [] A false CIN 60 (DA 167772162)].
Proof.
  intros c. exists [1;97;0; 0;1; 0;1; 0;0;0;60; 0;4], [10;0;0;1], [3;119;119;119;0; 0;1; 0;1; 0;0;0;60; 0;4; 10;0;0;2].
  destruct c as [[|] [|] [|]]; (split; [vm_compute; reflexivity|]); (split; [discriminate|]); split; vm_compute; reflexivity.
Qed.
Print Assumptions C117_behind_refuted.

(** ** A remedy
    With the length in front of each record, as for messages on TCP (C116), the program takes the octets of each record out and reads them alone. *)
Fixpoint read_alone (c : cfg) (ms : list bytes) : res (list rr) :=
  match ms with
  | [] => Ok []
  | m :: ms => let! r := fst (rr_try_from c (buf_from m)) in rmap (cons r) (read_alone c ms)
  end.
Definition restored_framed (c : cfg) (file : bytes) : res (list rr) := let! a := arrives [] file in read_alone c (fst a).

Lemma alone c rs ds : Forall (rr_plain_ok c) rs -> Forall2 (fun r d => rr_to_bytes c r = Ok d) rs ds -> read_alone c ds = Ok rs.
Proof.
  intros F F2. induction F2 as [|r d rs ds E F2 IH]; [reflexivity|]. inversion F as [|? ? O F']; subst. cbn [read_alone].
  destruct (reads_rr c r O) as (d' & E' & R). rewrite E in E'. apply Ok_inj in E' as <-. specialize (R [] []). unfold reads in R. cbn [app length] in R. rewrite app_nil_r in R.
  unfold buf_from. rewrite R. cbn [fst rbind]. rewrite (IH F'). reflexivity.
Qed.
Lemma nothing_left : unfinished [].
Proof. exists [], [0; 0]. split; [split; [cbn; lia|constructor]|]. split; [reflexivity|discriminate]. Qed.

(** Then whenever the crash comes, the records stored completely come back, exactly these, and [arrives] tells what to cut off before storing goes on. *)
Theorem C117_framed : forall (c : cfg) (rs : list rr) (ds : list bytes) (k : nat), Forall (rr_plain_ok c) rs -> Forall2 (fun r d => rr_to_bytes c r = Ok d) rs ds -> Forall sendable ds ->
  (k <= length (flat_map with_length ds))%nat ->
  exists before after left, rs = before ++ after /\ restored_framed c (firstn k (flat_map with_length ds)) = Ok before /\
    arrives [] (firstn k (flat_map with_length ds)) = Ok (firstn (length before) ds, left) /\
    firstn k (flat_map with_length ds) = flat_map with_length (firstn (length before) ds) ++ left /\
    (after <> [] -> (k < length (flat_map with_length (firstn (S (length before)) ds)))%nat).
Proof.
  intros c rs ds k F F2 S L. destruct (Nat.eq_dec k (length (flat_map with_length ds))) as [->|NE].
  - assert (Ln : length rs = length ds) by (clear - F2; induction F2; cbn [length]; congruence).
    exists rs, [], []. rewrite app_nil_r, Ln, !firstn_all. split; [reflexivity|].
    assert (A : arrives [] (flat_map with_length ds) = Ok (ds, [])) by (apply all_arrive; [exact S|apply nothing_left|rewrite app_nil_r; reflexivity]).
    unfold restored_framed. rewrite A. cbn [rbind fst]. rewrite (alone c rs ds F F2), app_nil_r. repeat split. congruence.
  - assert (K : (k < length (concat (map with_length ds)))%nat) by (rewrite <- flat_map_concat_map; lia).
    destruct (split_at (map with_length ds) k K) as (ds1 & d & ds2 & t & rest & Em & Ed & NR & E). clear NE.
    assert (E' : firstn k (flat_map with_length ds) = concat ds1 ++ t) by (rewrite flat_map_concat_map; exact E). clear E K. set (file := flat_map with_length ds) in *. clearbody file.
    apply map_eq_app in Em as (a & b & -> & Ea & Eb). apply map_eq_cons in Eb as (m & b' & -> & Em & Eb). subst ds1 ds2.
    rewrite <- flat_map_concat_map in E'.
    apply Forall2_parts in F2 as (before & r & after & -> & F1 & Er & F3). apply Forall_app in F as [Fb _]. apply Forall_app in S as [Sa Sm]. inversion Sm as [|? ? Sm1 _]; subst.
    assert (Ln : length before = length a) by (clear - F1; induction F1; cbn [length]; congruence).
    assert (A : arrives [] (flat_map with_length a ++ t) = Ok (a, t)).
    { apply all_arrive; [exact Sa|exists m, rest; split; [exact Sm1|]; split; [congruence|exact NR]|reflexivity]. }
    exists before, (r :: after), t. rewrite E', Ln. assert (X0 : firstn (length a) (a ++ m :: b') = a) by (rewrite firstn_app, Nat.sub_diag, firstn_all; apply app_nil_r). rewrite X0.
    split; [reflexivity|]. unfold restored_framed. rewrite A. cbn [rbind fst]. rewrite (alone c before a Fb F1). split; [reflexivity|]. split; [reflexivity|]. split; [reflexivity|].
    intros _. assert (X : firstn (Datatypes.S (length a)) (a ++ m :: b') = a ++ [m]).
    { replace (a ++ m :: b') with ((a ++ [m]) ++ b') by (rewrite <- app_assoc; reflexivity). rewrite firstn_app, app_length. cbn [length].
      rewrite firstn_all2 by (rewrite app_length; cbn [length]; lia). replace (Datatypes.S (length a) - (length a + 1))%nat with 0%nat by lia. apply app_nil_r. }
    rewrite X.
    rewrite flat_map_app, app_length. cbn [flat_map]. rewrite app_nil_r, Ed, app_length.
    assert (Lk : length (firstn k file) = k) by (rewrite firstn_length; lia). rewrite E', app_length in Lk.
    assert (length rest <> 0)%nat by (destruct rest; [congruence|discriminate]). lia.
Qed.
Print Assumptions C117_framed.

(** Two records, crashes in the second: behind its name; behind the first label of its name, where reading panics; inside that label. *)
Lemma ex_stored_ok r : In r [torn_a; next_www] -> rr_plain_ok ex_cfg r.
Proof.
  intros I. assert (X : rr_head_ok ex_cfg r /\ rdata_typed ex_cfg (rr_data r) /\ rdata_fits ex_cfg (rr_data r) /\ size_exact (rr_data r)).
  { destruct I as [<-|[<-|[]]]; (split; [repeat split; try discriminate; try (repeat constructor; cbn; lia); cbn; auto|]); repeat split; cbn; auto; reflexivity. }
  destruct X as (H & T & Ft & Sz). split; [split; [exact H|split; assumption]|]. split; [exact Sz|].
  intros bs E. destruct I as [<-|[<-|[]]]; vm_compute in E; apply Ok_inj in E; subst bs; vm_compute; discriminate.
Qed.
Example C117_ex : Forall (rr_plain_ok ex_cfg) [torn_a; next_www] /\ exists d1 d2, Forall2 (fun r d => rr_to_bytes ex_cfg r = Ok d) [torn_a; next_www] [d1; d2] /\ Forall sendable [d1; d2] /\
  restored ex_cfg (firstn 25 (d1 ++ d2)) = Ok [torn_a] /\ edge [[119; 119; 119]] 4 /\ restored ex_cfg (firstn 21 (d1 ++ d2)) = Panic /\ edge [[119; 119; 119]] 3 /\
  restored ex_cfg (firstn 20 (d1 ++ d2)) = Panic /\ restored ex_cfg (firstn 19 (d1 ++ d2)) = Ok [torn_a].
Proof.
  split; [constructor; [apply ex_stored_ok; left; reflexivity|constructor; [apply ex_stored_ok; right; left; reflexivity|constructor]]|].
  do 2 eexists. split; [constructor; [vm_compute; reflexivity|constructor; [vm_compute; reflexivity|constructor]]|].
  split; [repeat constructor; vm_compute; discriminate|]. split; [vm_compute; reflexivity|].
  split; [exists [[119; 119; 119]], []; split; [reflexivity|]; split; [discriminate|]; left; reflexivity|]. split; [vm_compute; reflexivity|].
  split; [exists [[119; 119; 119]], []; split; [reflexivity|]; split; [discriminate|]; right; reflexivity|]. split; vm_compute; reflexivity.
Qed.
