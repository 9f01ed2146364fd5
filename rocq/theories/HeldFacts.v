(** * Lemmas for C75. *)
From Coq Require Import Lia ZifyNat ZifyN.
From Verif Require Import Base Utf8 Buffer Fqdn Header Types RDataBasic Bitmap Svcb RDataSec RData Packet BaseFacts BitmapFacts Utf8Facts NameSpec CodeSpec HeaderSpec WireSpec
  FailSpec FieldSpec RepairSpec RepairFacts ReadSpec WireFacts ParseFacts FieldFacts ReadFacts ObjectSpec ObjectFacts HeldSpec.
Local Open Scope nat_scope.

Lemma total_app {X} (f : X -> nat) a b : total f (a ++ b) = total f a + total f b.
Proof. induction a as [|x a IH]; cbn [total fold_right app]; [reflexivity|]. fold (total f (a ++ b)) (total f a). lia. Qed.
Lemma total_le {X} (f : X -> nat) k l : Forall (fun x => f x <= k) l -> total f l <= length l * k.
Proof. induction 1 as [|x l H F IH]; cbn [total fold_right length]; [lia|]. fold (total f l). lia. Qed.
Lemma lossy_length l : length (utf8_lossy l) <= 3 * length l.
Proof.
  unfold utf8_lossy. remember (length l) as f eqn:Ef. assert (L : length l <= f) by lia. replace (3 * f) with (3 * length l) by lia. clear Ef.
  revert l L. induction f as [|f IH]; intros [|b rest] L; cbn [utf8_lossy_fuel]; try (cbn; lia).
  pose proof (scan_bounds b rest) as S. destruct (utf8_scan b rest) as [v n] eqn:E.
  assert (K : length (skipn n (b :: rest)) <= f) by (rewrite skipn_length; cbn [length] in *; lia).
  specialize (IH _ K). rewrite skipn_length in IH.
  destruct v; rewrite app_length; [rewrite firstn_length|unfold Utf8.replacement]; cbn [length] in *; lia.
Qed.
Lemma sorted_nodup {X} (key : X -> N) l : sorted_by key l -> NoDup l.
Proof.
  induction l as [|x l IH]; intros H; [constructor|]. destruct H as [H F]. constructor; [|apply IH; assumption].
  intros I. first [apply (proj1 (Forall_forall _ _) H) in I|apply (proj1 (Forall_forall _ _) F) in I]. lia.
Qed.

Section Pieces.
  Context (d : bytes) (K : nat) (HK : 192 * length d + 3 <= K).
  (** A piece weighs at most [K] for each octet it takes. *)
  Definition one (x : piece) (w : nat) : Prop := forall p e, p <= length d -> x p e -> p <= e <= length d /\ w <= (e - p) * K.
  Definition weighs (ps : list piece) (w : nat) : Prop := forall p e, p <= length d -> laid ps p e -> p <= e <= length d /\ w <= (e - p) * K.
  Lemma weighs_nil : weighs [] 0.
  Proof. intros p e L E. cbn [laid] in E. subst. lia. Qed.
  Lemma weighs_cons x ps w w' : one x w -> weighs ps w' -> weighs (x :: ps) (w + w').
  Proof.
    intros A B p e L (m & X & Y). destruct (A p m L X) as [C D]. destruct (B m e (proj2 C) Y) as [E F]. split; [lia|].
    replace (e - p) with ((m - p) + (e - m)) by lia. rewrite Nat.mul_add_distr_r. lia.
  Qed.
  Lemma one_le (x : piece) w w' : one x w -> w' <= w -> one x w'.
  Proof. intros H L p e P X. destruct (H p e P X). split; lia. Qed.
  Lemma fits n k : n <= k -> n <= k * K.
  Proof. intros L. nia. Qed.
  Lemma one_num w v : one (num d w v) 0.
  Proof. intros p e L X. pose proof (num_in _ _ _ _ _ X). destruct X as (_ & ->). lia. Qed.
  Lemma one_such w s : one (num_such d w s) 0.
  Proof. intros p e L (v & _ & X). apply (one_num w v p e L X). Qed.
  Lemma one_name f : one (name d f) (octets_in_name f).
  Proof.
    intros p e L X. unfold name in X. pose proof (name_at_end _ _ _ _ X). destruct (name_bounded _ _ _ _ X) as (_ & _ & B). split; [lia|].
    apply Nat.le_trans with (1 * K); [lia|]. apply Nat.mul_le_mono_r. lia.
  Qed.
  Lemma string_span s p e : string_at d p s e -> p < e <= length d /\ e - p = element s.
  Proof. intros (_ & L & _ & ->). unfold element. lia. Qed.
  Lemma one_str s : one (str d s) (element s).
  Proof. intros p e L X. apply string_span in X. split; [lia|]. apply fits. lia. Qed.
  Lemma one_octets s : one (octets d s) (length s).
  Proof. intros p e L X. pose proof (octets_in _ _ _ _ X). destruct X as (_ & ->). split; [lia|]. apply fits. lia. Qed.
  Lemma one_rest s : one (rest d s) (length s).
  Proof. intros p e L (-> & ->). split; [lia|]. rewrite skipn_length. apply fits. lia. Qed.
  Lemma one_sized s : one (sized d s) (length s).
  Proof.
    intros p e L (m & X & Y). destruct (one_num _ _ p m L X) as [A _]. destruct (one_octets s m e (proj2 A) Y) as [B C]. split; [lia|].
    eapply Nat.le_trans; [exact C|]. apply Nat.mul_le_mono_r. lia.
  Qed.
  (** Entries: each takes at least one octet and weighs little enough. *)
  Lemma entries_weigh {X} (entry : nat -> X -> nat -> Prop) (size : X -> nat) : (forall p x e, p <= length d -> entry p x e -> p <= e <= length d /\ size x <= (e - p) * K) ->
    forall xs p e, p <= length d -> consecutive entry p xs e -> p <= e <= length d /\ total size xs <= (e - p) * K /\ length xs <= e - p.
  Proof.
    intros H xs p e L C. revert L. induction C as [p|p x m xs e A M C IH]; intros L; cbn [total fold_right length]; [lia|]. fold (total size xs).
    destruct (H p x m L A) as [B D]. destruct (IH (proj2 B)) as (E & F & G). split; [lia|]. split; [|lia].
    replace (e - p) with ((m - p) + (e - m)) by lia. rewrite Nat.mul_add_distr_r. lia.
  Qed.
  Lemma one_txt l : one (fun p e => exists raw, entries d (string_at d) raw p e /\ Forall2 repaired raw l) (total element l).
  Proof.
    intros p e L (raw & (C & E) & R). apply repaired_all in R. subst l. destruct (entries_weigh (string_at d) (fun s => element (utf8_lossy s))) with (xs := raw) (p := p) (e := e) as (A & B & _); [|exact L|exact C|].
    - intros q x m Q S. apply string_span in S as [S T]. split; [lia|]. pose proof (lossy_length x). unfold element in *. nia.
    - split; [exact A|]. replace (total element (map utf8_lossy raw)) with (total (fun s => element (utf8_lossy s)) raw); [exact B|].
      clear. unfold total. induction raw as [|x raw IH]; cbn [map fold_right]; [reflexivity|]. rewrite IH. reflexivity.
  Qed.
  Lemma one_options m : one (fun p e => exists all, entries d (option_at d) all p e /\ (forall x, In x m <-> last_of fst all x) /\
                   map fst m = rev (nodup N.eq_dec (rev (map fst all)))) (total (fun x => element (snd x)) m).
  Proof.
    intros p e L (all & (C & E) & I & M). destruct (entries_weigh (option_at d) (fun _ => 0)) with (xs := all) (p := p) (e := e) as (A & _ & B); [|exact L|exact C|].
    - intros q x k Q (_ & _ & S & _ & ->). lia.
    - split; [exact A|]. assert (Lm : length m <= length all).
      { rewrite <- (map_length fst m), M, rev_length. rewrite <- (map_length fst all), <- (rev_length (map fst all)). apply NoDup_incl_length; [apply NoDup_nodup|].
        intros x X. apply nodup_In in X. exact X. }
      apply Nat.le_trans with (length m * K); [|apply Nat.mul_le_mono_r; lia]. apply total_le, Forall_forall. intros x X. apply I in X as (b & a & E' & _).
      assert (O : forall xs q z, consecutive (option_at d) q xs z -> forall y, In y xs -> length (snd y) <= length d).
      { clear. intros xs q z C. induction C as [|q x m xs z (_ & _ & S & _) _ C IH]; intros y [].
        - subst. lia.
        - apply IH. assumption. }
      assert (length (snd x) <= length d) by (apply (O all p e C); rewrite E'; apply in_or_app; right; left; reflexivity). unfold element. lia.
  Qed.
  Lemma one_flags fs : one (naptr_flags d fs) (length fs).
  Proof.
    intros p e L (s & S & F). apply string_span in S as [S T]. split; [lia|]. apply fits. unfold element in T.
    assert (length fs <= length s) by (clear - F; induction F; cbn [length]; lia). lia.
  Qed.
  Lemma one_text s : one (text_str d s) (element s).
  Proof. intros p e L (S & _). apply (one_str s p e L S). Qed.
  Lemma one_gateway g : one (gateway_at d g) (match g with GwDomain f => octets_in_name f | _ => 0 end).
  Proof. destruct g; cbn [gateway_at]; [apply one_such|apply one_num|apply one_num|apply one_name]. Qed.
  Lemma one_servers rv : one (servers d rv) (match rv with Some l => total octets_in_name l | None => 0 end).
  Proof.
    destruct rv as [l|]; intros p e L X; cbn [servers] in X; [|lia]. destruct X as (_ & C & _).
    destruct (entries_weigh (fun p f e => name d f p e) octets_in_name) with (xs := l) (p := p) (e := e) as (A & B & _); [|exact L|exact C|auto].
    intros q x m Q N. apply (one_name x q m Q N).
  Qed.
  Lemma one_apl n w a : one (apl_address d n w a) 0.
  Proof.
    intros p e L (o & s & N & _ & _ & O & _). destruct (one_num _ _ p _ L N) as [A _]. destruct (one_octets s _ e (proj2 A) O). lia.
  Qed.
  Definition every_type : list rtype := map fst iana_types.
  Lemma every_type_in t : In t every_type.
  Proof. destruct t; cbn; auto 50. Qed.
  Lemma one_bitmaps c ts : one (bitmaps d c ts) (length ts).
  Proof.
    intros p e L (ws & W & _ & S & I & ->). destruct ts as [|t ts]; [cbn; lia|].
    assert (Mono : forall a b z, consecutive (window_at d) a b z -> a <= z) by (intros ? ? ? C; induction C; lia).
    assert (P : p < length d).
    { destruct (proj1 (I t) (or_introl eq_refl)) as (n & (x & ? & X & _) & _). unfold windows_at in W. inversion W as [|? ? m ? ? _ M C]; subst; [destruct X|].
      apply Mono in C. lia. }
    split; [lia|]. apply Nat.le_trans with (1 * K); [|apply Nat.mul_le_mono_r; lia].
    assert (length (t :: ts) <= length every_type) by (apply NoDup_incl_length; [apply (sorted_nodup rtype_code), S|intros y _; apply every_type_in]).
    assert (length every_type <= 50) by (apply Nat.leb_le; reflexivity). lia.
  Qed.
  Lemma keys_span raw p e : p <= length d -> consecutive (key_at d) p raw e -> p <= e <= length d /\ length raw <= e - p.
  Proof.
    intros L C. destruct (entries_weigh (key_at d) (fun _ => 0)) with (xs := raw) (p := p) (e := e) as (A & _ & B); auto.
    intros q x m Q (U & _ & ->). apply u16_at_end in U. lia.
  Qed.
  Lemma param_span y p e : p <= length d -> param_at d p y e -> p <= e <= length d /\ S (held_param y) <= K.
  Proof.
    intros L (U & _ & len & V & H). apply u16_at_end in U. apply u16_at_end in V. destruct y as [ks| | | | | | | |]; cbn [held_param]; try (unfold number_at in H; lia).
    - destruct H as (E & raw & C & S & I). destruct (keys_span raw (p + 4) e) as [A B]; [lia|exact C|].
      assert (length ks <= length raw) by (apply NoDup_incl_length; [apply (sorted_nodup pkey_code), S|intros k; apply I]). lia.
    - destruct H as (E & C). assert (X : forall ss q z, consecutive (string_at d) q ss z -> q <= length d -> q <= z <= length d /\ total element ss = z - q).
      { clear - HK. intros ss q z C. induction C as [q|q x m ss z S M C IH]; intros L; cbn [total fold_right]; [lia|]. fold (total element ss).
        apply string_span in S as [A B]. destruct IH; lia. }
      apply X in C; lia.
    - destruct H as (-> & H & ->). unfold slice. rewrite firstn_length. lia.
    - destruct H as (-> & H & ->). unfold slice. rewrite firstn_length. lia.
  Qed.
  Lemma one_params ps : one (params d ps) (total (fun y => S (held_param y)) ps).
  Proof.
    intros p e L (all & C & -> & S & I). destruct (entries_weigh (param_at d) (fun _ => 0)) with (xs := all) (p := p) (e := length d) as (A & _ & B); [|exact L|exact C|].
    - intros q x m Q H. apply param_span in H; lia.
    - split; [lia|]. assert (Sub : forall y, In y ps -> In y all).
      { intros y Y. apply I in Y as (b & a & -> & _). apply in_or_app. right. left. reflexivity. }
      assert (length ps <= length all) by (apply NoDup_incl_length; [apply (sorted_nodup param_code), S|exact Sub]).
      apply Nat.le_trans with (length ps * K); [|apply Nat.mul_le_mono_r; lia]. apply total_le, Forall_forall. intros y Y. apply Sub in Y.
      assert (X : forall xs q z, consecutive (param_at d) q xs z -> q <= length d -> forall w, In w xs -> Datatypes.S (held_param w) <= K).
      { clear - HK. intros xs q z C. induction C as [|q x m xs z P M C IH]; intros L w []; destruct (param_span _ _ _ L P); [congruence|]. apply IH; [lia|assumption]. }
      apply (X all p (length d) C L y Y).
  Qed.
  Lemma one_and (Q : Prop) (x : piece) w : one x w -> one (fun p e => Q /\ x p e) w.
  Proof. intros H p e L [_ X]. exact (H p e L X). Qed.
  Lemma one_and' (Q : Prop) (x : piece) w : one x w -> one (fun p e => x p e /\ Q) w.
  Proof. intros H p e L [X _]. exact (H p e L X). Qed.
  Lemma one_tag t : one (fun p e => exists raw, raw <> [] /\ str d raw p e /\ repaired raw t) (length t).
  Proof. intros p e L (raw & _ & S & R). apply repaired_iff in R. subst t. apply string_span in S as [S T]. split; [lia|]. pose proof (lossy_length raw). unfold element in T. nia. Qed.
  Hint Resolve one_num one_such one_name one_str one_octets one_rest one_sized one_txt one_options one_flags one_text one_gateway one_servers one_apl one_bitmaps one_params
    one_and one_and' one_tag : held.
  Lemma one_str' s : one (str d s) (length s).
  Proof. apply one_le with (element s); [apply one_str|unfold element; lia]. Qed.
  Lemma one_text' s : one (text_str d s) (length s).
  Proof. apply one_le with (element s); [apply one_text|unfold element; lia]. Qed.
  Lemma weighs_le ps w w' : weighs ps w -> w' <= w -> weighs ps w'.
  Proof. intros H L p e P X. destruct (H p e P X). split; lia. Qed.
  Ltac weigh := repeat first [eapply weighs_cons; [first [apply one_str'|apply one_text'|solve [eauto with held nocore]]|]|apply weighs_nil].
  Lemma data_weighs c x : weighs (pieces d c x) (held_data x).
  Proof.
    destruct x; cbn [pieces held_data]; try (eapply weighs_le; [solve [weigh]|cbv beta; lia]).
    - destruct (apl_afd x); (eapply weighs_le; [solve [weigh]|lia]).
    - pose proof (one_servers (hip_rv x)) as S. destruct (hip_rv x); (eapply weighs_le; [solve [weigh]|lia]).
  Qed.
End Pieces.

Lemma record_weighs c d p r e : p <= length d -> record_on_wire c d p r e -> p <= e <= length d /\ held_record r <= (e - p) * (192 * length d + 3).
Proof.
  intros L (k & v & len & N & _ & _ & _ & _ & _ & _ & _ & _ & _ & E & B & m & M & D).
  pose proof (name_at_end _ _ _ _ N) as NE. destruct (one_name d (192 * length d + 3) (le_n _) (rr_name r) p k L N) as [_ W].
  assert (LF : length (firstn e d) = e) by (rewrite firstn_length; lia).
  destruct (data_weighs (firstn e d) (192 * length d + 3)) with (c := c) (x := rr_data r) (p := k + 10) (e := m) as [A F]; [lia|lia|exact D|].
  split; [lia|]. unfold held_record. assert (X : (m - (k + 10)) * (192 * length d + 3) <= (e - (k + 10)) * (192 * length d + 3)) by (apply Nat.mul_le_mono_r; lia).
  replace (e - p) with ((k - p) + 10 + (e - (k + 10))) by lia. rewrite !Nat.mul_add_distr_r. lia.
Qed.
Lemma question_weighs c d p q e : p <= length d -> question_at c d p q e -> p <= e <= length d /\ S (octets_in_name (q_name q)) <= (e - p) * (192 * length d + 3).
Proof.
  intros L (k & v & N & _ & _ & U & _ & _ & ->). apply u16_at_end in U. destruct (one_name d (192 * length d + 3) (le_n _) (q_name q) p k L N) as [A W].
  split; [lia|]. replace (k + 4 - p) with ((k - p) + 4) by lia. rewrite Nat.mul_add_distr_r. lia.
Qed.
Lemma packet_weighs c d p e : packet_on_wire c d p e -> held p <= 192 * length d * length d.
Proof.
  intros (L & _ & _ & _ & _ & e1 & e2 & e3 & Q & A & B & C). unfold held. rewrite !total_app.
  destruct (entries_weigh d (192 * length d + 3) (le_n _) (question_at c d) (fun q => S (octets_in_name (q_name q)))) with (xs := p_questions p) (p := 12) (e := e1) as (L1 & W1 & _); [|lia|exact Q|].
  { intros q x m. apply question_weighs. }
  destruct (entries_weigh d (192 * length d + 3) (le_n _) (record_on_wire c d) held_record) with (xs := p_answers p) (p := e1) (e := e2) as (L2 & W2 & _); [|lia|exact A|].
  { intros q x m. apply record_weighs. }
  destruct (entries_weigh d (192 * length d + 3) (le_n _) (record_on_wire c d) held_record) with (xs := p_authorities p) (p := e2) (e := e3) as (L3 & W3 & _); [|lia|exact B|].
  { intros q x m. apply record_weighs. }
  destruct (entries_weigh d (192 * length d + 3) (le_n _) (record_on_wire c d) held_record) with (xs := p_additionals p) (p := e3) (e := e) as (L4 & W4 & _); [|lia|exact C|].
  { intros q x m. apply record_weighs. }
  remember (length d) as n. assert (e <= n) by lia.
  assert (T : (e1 - 12) * (192 * n + 3) + (e2 - e1) * (192 * n + 3) + (e3 - e2) * (192 * n + 3) + (e - e3) * (192 * n + 3) = (e - 12) * (192 * n + 3)).
  { rewrite <- !Nat.mul_add_distr_r. f_equal. lia. }
  assert (U : (e - 12) * (192 * n + 3) <= (n - 12) * (192 * n + 3)) by (apply Nat.mul_le_mono_r; lia).
  assert (V : (n - 12) * (192 * n + 3) <= 192 * n * n) by nia. lia.
Qed.
