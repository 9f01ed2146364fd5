(** * SVCB parameters read back as written. *)
From Verif Require Import Base Buffer Fqdn Types RDataBasic Svcb BaseFacts BufferFacts FqdnFacts CodeSpec CodeFacts RDataSpec RDataReads.
From Coq Require Import Lia ZifyBool ZifyNat ZifyN.
Ltac Zify.zify_post_hook ::= Z.div_mod_to_equations.

Lemma usub_ok c m a b : b <= a -> usub c m a b = Ok (a - b).
Proof. intros H. unfold usub. replace (b <=? a) with true by lia. reflexivity. Qed.

Lemma reads_mandatory c : forall ks fuel acc pre suf,
  Forall pkey_documented ks -> sorted_by pkey_code (acc ++ ks) -> (length ks < fuel)%nat ->
  reads pre suf (mandatory_loop c fuel (2 * N.of_nat (length ks)) acc) (flat_map (fun k => be 2 (pkey_code k)) ks) (acc ++ ks).
Proof.
  induction ks as [|k ks IH]; intros fuel acc pre suf D S L.
  - destruct fuel as [|fuel]; [cbn [length] in L; lia|]. rewrite app_nil_r. apply reads_ret.
  - destruct fuel as [|fuel]; [cbn [length] in L; lia|]. apply Forall_cons_iff in D. destruct D as [D D'].
    assert (E : set_insert pkey_code k acc = acc ++ [k]).
    { apply set_insert_last. apply sorted_by_app in S. destruct S as (_ & _ & S).
      eapply Forall_impl; [|exact S]. intros y Hy. apply Forall_cons_iff in Hy. apply Hy. }
    cbn [length] in L.
    assert (K : reads pre suf (k <- extract_u16_as pkey_try_from ;;
                 len' <- lift (usub c M64 (2 * N.of_nat (length (k :: ks))) 2) ;;
                 mandatory_loop c fuel len' (set_insert pkey_code k acc))
                 (flat_map (fun k => be 2 (pkey_code k)) (k :: ks)) (acc ++ k :: ks)).
    { cbn [flat_map]. eapply reads_bind; [apply (reads_u16_dom _ _ _ _ _ _ _ pkey_faithful D)|].
      eapply reads_lift; [apply usub_ok; cbn [length]; lia|].
      rewrite E. replace (2 * N.of_nat (length (k :: ks)) - 2) with (2 * N.of_nat (length ks)) by (cbn [length]; lia).
      eapply reads_val; [apply IH; [exact D'|rewrite <- app_assoc; exact S|lia]|].
      rewrite <- app_assoc. reflexivity. }
    unfold reads in *. cbn [mandatory_loop].
    replace (2 * N.of_nat (length (k :: ks)) =? 0) with false by (cbn [length]; lia). exact K.
Qed.

Lemma flat_char_length ids : length (flat_map char_string ids) = fold_left (fun acc a => acc + length a + 1)%nat ids 0%nat.
Proof.
  assert (G : forall n, (n + length (flat_map char_string ids) = fold_left (fun acc a => acc + length a + 1) ids n)%nat).
  { induction ids as [|a ids IH]; intros n; cbn [flat_map fold_left length]; [lia|].
    rewrite <- IH, app_length. unfold char_string. cbn [length]. lia. }
  rewrite <- G. reflexivity.
Qed.

Lemma reads_alpn c : forall ids fuel acc pre suf, Forall short ids -> (length ids < fuel)%nat ->
  reads pre suf (alpn_loop c fuel (N.of_nat (length (flat_map char_string ids))) acc) (flat_map char_string ids) (acc ++ ids).
Proof.
  induction ids as [|a ids IH]; intros fuel acc pre suf S L.
  - destruct fuel as [|fuel]; [cbn [length] in L; lia|]. rewrite app_nil_r. apply reads_ret.
  - destruct fuel as [|fuel]; [cbn [length] in L; lia|]. apply Forall_cons_iff in S. destruct S as [S S'].
    cbn [length] in L.
    assert (LE : length (flat_map char_string (a :: ids)) = (1 + length a + length (flat_map char_string ids))%nat).
    { cbn [flat_map]. rewrite app_length. unfold char_string. cbn [length]. lia. }
    assert (L8 : len8 (length a) = N.of_nat (length a)) by (unfold short in S; apply len8_id; lia).
    assert (K : reads pre suf (n <- extract_u8 ;;
                 s <- extract_bytes (N.to_nat n) ;;
                 len' <- lift (usub c M64 (N.of_nat (length (flat_map char_string (a :: ids)))) (n + 1)) ;;
                 alpn_loop c fuel len' (acc ++ [s]))
                 (flat_map char_string (a :: ids)) (acc ++ a :: ids)).
    { change (flat_map char_string (a :: ids)) with ([len8 (length a)] ++ a ++ flat_map char_string ids) at 2.
      eapply reads_bind; [apply reads_u8; apply len8_lt|].
      eapply reads_bind; [apply reads_len8; exact S|].
      eapply reads_lift; [apply usub_ok; rewrite LE, L8; lia|].
      replace (N.of_nat (length (flat_map char_string (a :: ids))) - (len8 (length a) + 1))
        with (N.of_nat (length (flat_map char_string ids))) by (rewrite LE, L8; lia).
      eapply reads_val; [apply IH; [exact S'|lia]|].
      rewrite <- app_assoc. reflexivity. }
    unfold reads in *. cbn [alpn_loop].
    replace (N.of_nat (length (flat_map char_string (a :: ids))) =? 0) with false by (rewrite LE; lia).
    exact K.
Qed.

Lemma reads_fueled {A B} pre suf (q : nat -> P A) (f : A -> B) bs a v :
  (length bs < S (length (pre ++ bs ++ suf) - length pre))%nat ->
  (forall fuel, (length bs < fuel)%nat -> reads pre suf (q fuel) bs a) -> f a = v ->
  reads pre suf (fun b => (x <- q (S (remaining b)) ;; ret (f x)) b) bs v.
Proof.
  intros _ H <-. specialize (H (S (remaining (mkbuf (pre ++ bs ++ suf) (length pre))))).
  unfold reads at 1. apply (reads_bind_ret pre suf). apply H.
  unfold remaining. cbn [data pos]. rewrite !app_length. lia.
Qed.

Lemma param_byte_size_eq p : param_byte_size p = (4 + length (param_value_bytes p))%nat.
Proof.
  unfold param_byte_size. f_equal. destruct p; cbn [param_value_bytes]; try reflexivity.
  - induction keys as [|k ks IH]; [reflexivity|]. cbn [flat_map length]. rewrite app_length, be_length, <- IH. lia.
  - symmetry. apply flat_char_length.
Qed.
Lemma param_value_fits p : param_fits p -> N.of_nat (length (param_value_bytes p)) <= 65531.
Proof.
  assert (K : forall ks, length (flat_map (fun k => be 2 (pkey_code k)) ks) = (2 * length ks)%nat).
  { induction ks as [|k ks IH]; [reflexivity|]. cbn [flat_map length]. rewrite app_length, be_length, IH. lia. }
  destruct p; cbn [param_fits param_value_bytes]; intros H; try (cbn; lia).
  - rewrite K. lia.
  - apply H.
Qed.
Lemma param_bytes_ok c p : param_fits p ->
  param_to_bytes c p = Ok (be 2 (pkey_code (param_key p)) ++ be 2 (N.of_nat (length (param_value_bytes p))) ++ param_value_bytes p).
Proof.
  intros F. pose proof (param_value_fits p F) as L. unfold param_to_bytes. rewrite param_byte_size_eq.
  rewrite len16_id by lia. rewrite usub_ok by lia. cbn [rbind]. do 3 f_equal. f_equal. lia.
Qed.

Lemma reads_param c p pre suf bs : param_typed p -> param_fits p -> param_to_bytes c p = Ok bs ->
  reads pre suf (param_try_from c) bs p.
Proof.
  intros T F E. rewrite (param_bytes_ok c p F) in E. apply Ok_inj in E. subst bs.
  pose proof (param_value_fits p F) as L.
  assert (D : pkey_documented (param_key p)) by (destruct p; try exact I; apply F).
  unfold param_try_from.
  eapply reads_bind; [apply (reads_u16_dom _ _ _ _ _ _ _ pkey_faithful D)|].
  eapply reads_bind; [apply reads_u16; lia|].
  destruct p; cbn [param_key param_typed param_fits param_value_bytes] in *.
  - destruct T as [T _]. destruct F as [F _].
    eapply (reads_fueled _ _ (fun fuel => mandatory_loop c fuel _ []) PMandatory).
    + rewrite !app_length. lia.
    + intros fuel Hf.
      assert (K : forall ks, length (flat_map (fun k => be 2 (pkey_code k)) ks) = (2 * length ks)%nat).
      { induction ks as [|k ks IH]; [reflexivity|]. cbn [flat_map length]. rewrite app_length, be_length, IH. lia. }
      rewrite K. replace (N.of_nat (2 * length keys)) with (2 * N.of_nat (length keys)) by lia.
      apply (reads_mandatory c keys fuel []); [exact F|exact T|]. rewrite K in Hf. lia.
    + reflexivity.
  - destruct F as [F _]. eapply (reads_fueled _ _ (fun fuel => alpn_loop c fuel _ []) PAlpn).
    + rewrite !app_length. lia.
    + intros fuel Hf. apply (reads_alpn c ids fuel []); [exact F|].
      assert (G : (length ids <= length (flat_map char_string ids))%nat).
      { clear. induction ids as [|a ids IH]; [reflexivity|]. cbn [flat_map length]. rewrite app_length. change (length (char_string a)) with (S (length a)). lia. }
      eapply Nat.le_lt_trans; [exact G|exact Hf].
    + reflexivity.
  - apply reads_ret.
  - eapply reads_done; [apply reads_u16; exact T|reflexivity].
  - eapply reads_done; [apply reads_u32; exact T|reflexivity].
  - eapply reads_done; [apply reads_bytes; lia|reflexivity].
  - eapply reads_done; [apply reads_bytes; apply be_length|]. rewrite unbe_be by exact T. reflexivity.
  - eapply reads_done; [apply reads_bytes; lia|reflexivity].
  - apply reads_ret.
Qed.

(** The sub-buffer of all that remains is the buffer itself. *)
Lemma sub_buffer_rest b : inv b -> sub_buffer b (remaining b) = Ok b.
Proof.
  intros I. unfold inv in I. unfold sub_buffer, remaining.
  replace (length (data b) <? pos b + (length (data b) - pos b))%nat with false by (symmetry; apply Nat.ltb_ge; lia).
  replace (pos b + (length (data b) - pos b))%nat with (length (data b)) by lia.
  rewrite firstn_all. destruct b; reflexivity.
Qed.
Lemma reads_param_step c acc p pre suf bs :
  reads pre suf (param_try_from c) bs p ->
  reads pre suf (param_step c acc) bs (set_insert param_code p acc).
Proof.
  intros H. unfold reads in *. unfold param_step. rewrite sub_buffer_rest.
  - rewrite H. cbn [pos]. unfold bind, set_position. cbn [data].
    replace (length (pre ++ bs ++ suf) <? length pre + length bs)%nat with false
      by (symmetry; apply Nat.ltb_ge; rewrite !app_length; lia). reflexivity.
  - unfold inv. cbn [data pos]. rewrite app_length. lia.
Qed.

Definition param_enc (p : param) : bytes :=
  be 2 (pkey_code (param_key p)) ++ be 2 (N.of_nat (length (param_value_bytes p))) ++ param_value_bytes p.
Lemma params_bytes_ok c ps : Forall param_fits ps -> params_bytes c ps = Ok (flat_map param_enc ps).
Proof.
  induction ps as [|p ps IH]; intros F; [reflexivity|]. apply Forall_cons_iff in F. destruct F as [F F'].
  cbn [params_bytes flat_map]. rewrite (param_bytes_ok c p F). cbn [rbind]. rewrite (IH F'). reflexivity.
Qed.

Lemma fold_set_insert {X} (key : X -> N) l : forall acc, sorted_by key (acc ++ l) ->
  fold_left (fun a x => set_insert key x a) l acc = acc ++ l.
Proof.
  induction l as [|x l IH]; intros acc S; cbn [fold_left]; [symmetry; apply app_nil_r|].
  rewrite set_insert_last.
  - rewrite IH; rewrite <- app_assoc; [reflexivity|exact S].
  - apply sorted_by_app in S. destruct S as (_ & _ & S).
    eapply Forall_impl; [|exact S]. intros y Hy. apply Forall_cons_iff in Hy. apply Hy.
Qed.

Lemma reads_params c ps pre : Forall param_typed ps -> Forall param_fits ps -> sorted_by param_code ps ->
  reads pre [] (loop_remaining (param_step c) []) (flat_map param_enc ps) ps.
Proof.
  intros T F S.
  eapply reads_val; [apply (reads_loop_map (param_step c) param_enc (fun a x => set_insert param_code x a))
                    |exact (fold_set_insert param_code ps [] S)].
  intros done x rest pre' ->. apply Forall_app in T. destruct T as [_ T]. apply Forall_app in F. destruct F as [_ F].
  apply Forall_cons_iff in T. apply Forall_cons_iff in F. destruct T as [T _], F as [F _].
  split; [unfold param_enc; rewrite !app_length, be_length; lia|]. intros suf.
  apply reads_param_step. apply (reads_param c x _ _ _ T F). apply (param_bytes_ok c x F).
Qed.

Lemma reads_svcb c pre x bs : U16 (sv_prio x) -> sorted_by param_code (sv_params x) -> Forall param_typed (sv_params x) ->
  fqdn_ok (sv_target x) -> Forall param_fits (sv_params x) -> svcb_to_bytes c x = Ok bs ->
  reads pre [] (svcb_try_from c) bs x.
Proof.
  intros Pr S T Fq F E. unfold svcb_to_bytes in E. rewrite (params_bytes_ok c _ F) in E. cbn [rbind] in E.
  apply Ok_inj in E. subst bs. unfold svcb_try_from.
  eapply reads_bind; [apply reads_u16; exact Pr|]. eapply reads_bind; [apply reads_fqdn; exact Fq|].
  eapply reads_done; [apply reads_params; assumption|destruct x; reflexivity].
Qed.
