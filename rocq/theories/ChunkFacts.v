(** * Messages with shared-dictionary names: everything written can be read. *)
From Verif Require Import Base Buffer Fqdn BaseFacts BufferFacts NameSpec FqdnLoop FqdnFacts CompressSpec.
From Coq Require Import Lia ZifyBool ZifyNat ZifyN.

Lemma tail_of_suffixes fs f : In f fs -> suffixes_in (tail_of fs) f.
Proof. intros H a s E Hs. split; [assumption|]. exists f, a. auto. Qed.

Lemma write_chunks_ext h cs : forall w m w' marks,
  write_chunks h cs w m = (w', marks) -> exists x, w' = w ++ x.
Proof.
  induction cs as [|[b|f] cs IH]; intros w m w' marks E; cbn [write_chunks] in E.
  - inversion E; subst. exists []. rewrite app_nil_r. reflexivity.
  - apply IH in E as [x ->]. exists (b ++ x). rewrite app_assoc. reflexivity.
  - destruct (fqdn_to_bytes_compressed h f m (length w)) as [bs m'].
    destruct (write_chunks h cs (w ++ bs) m') as [w1 ms] eqn:E1. inversion E; subst.
    apply IH in E1 as [x ->]. exists (bs ++ x). rewrite app_assoc. reflexivity.
Qed.

Lemma write_chunks_strict h fs ml : ml <= 191 -> hash_separates h fs -> forall cs w m w' marks,
  incl (names_of cs) fs -> Forall (labels_upto ml) (names_of cs) ->
  dict_ok h (tail_of fs) ml w m ->
  write_chunks h cs w m = (w', marks) -> N.of_nat (length w') <= 16384 ->
  Forall (fun x => let '(p, f, q) := x in strict_name_at w' ml p f q) marks.
Proof.
  intros Hml HS. induction cs as [|[b|f] cs IH]; intros w m w' marks HI HL HD E Hlen; cbn [write_chunks] in E.
  - inversion E; subst. constructor.
  - eapply IH; [| | |exact E|assumption]; try assumption. apply dict_ok_ext, HD.
  - destruct (fqdn_to_bytes_compressed h f m (length w)) as [bs m'] eqn:E0.
    destruct (write_chunks h cs (w ++ bs) m') as [w1 ms] eqn:E1. injection E as <- <-.
    destruct (write_chunks_ext _ _ _ _ _ _ E1) as [x Ex].
    assert (Hb : N.of_nat (length w + length bs) <= 16384)
      by (rewrite Ex, !app_length in Hlen; lia).
    cbn [names_of flat_map app] in HI, HL. apply Forall_cons_iff in HL as [HL1 HL2].
    destruct (compress_strict h (tail_of fs) ml Hml HS w m f bs m') as [S1 S2]; try assumption.
    { apply tail_of_suffixes, HI. left; reflexivity. }
    constructor.
    + rewrite Ex. apply strict_ext, S1.
    + eapply IH; [| |exact S2|exact E1|assumption]; try assumption.
      intros y Hy. apply HI. right; assumption.
Qed.

Lemma write_chunks_read h cs ml w' marks suf : ml <= 191 ->
  hash_separates h (names_of cs) -> Forall (labels_upto ml) (names_of cs) ->
  write_chunks h cs [] [] = (w', marks) -> N.of_nat (length w') <= 16384 ->
  Forall (fun x => let '(p, f, q) := x in
            strict_name_at w' ml p f q /\
            extract_fqdn (mkbuf (w' ++ suf) p) = (Ok f, mkbuf (w' ++ suf) q)) marks.
Proof.
  intros Hml HS HL E Hlen.
  assert (F : Forall (fun x => let '(p, f, q) := x in strict_name_at w' ml p f q) marks).
  { eapply (write_chunks_strict h (names_of cs) ml Hml HS cs); try eassumption.
    - intros x Hx; exact Hx.
    - apply dict_ok_nil. }
  eapply Forall_impl; [|exact F]. intros [[p f] q] HN. split; [exact HN|].
  apply extract_fqdn_complete, name_at_ext, strict_name. eapply strict_mono; [|exact HN]. assumption.
Qed.

(** The marks are the names, in order. *)
Lemma write_chunks_names h cs : forall w m,
  map (fun x => snd (fst x)) (snd (write_chunks h cs w m)) = names_of cs.
Proof.
  induction cs as [|[b|f] cs IH]; intros w m; cbn [write_chunks names_of flat_map app]; [reflexivity|apply IH|].
  destruct (fqdn_to_bytes_compressed h f m (length w)) as [bs m'].
  specialize (IH (w ++ bs) m'). destruct (write_chunks h cs (w ++ bs) m'). cbn [snd map fst] in *.
  f_equal. exact IH.
Qed.

(** A decidable form of [hash_separates], used to show that concrete cases meet the hypothesis. *)
Fixpoint tails (f : fqdn) : list fqdn := match f with [] => [] | _ :: f' => f :: tails f' end.
Fixpoint name_eqb (a b : fqdn) : bool :=
  match a, b with
  | [], [] => true
  | x :: a', y :: b' => bytes_eqb x y && name_eqb a' b'
  | _, _ => false
  end.
Definition separates_b (h : hasher) (fs : list fqdn) : bool :=
  let hs := map (fun s => (s, h s)) (nodup (list_eq_dec (list_eq_dec N.eq_dec)) (flat_map tails fs)) in
  forallb (fun a => forallb (fun b => name_eqb (fst a) (fst b) || negb (snd a =? snd b)) hs) hs.

Lemma tails_in f : forall a s, f = a ++ s -> s <> [] -> In s (tails f).
Proof.
  induction f as [|l f IH]; intros a s E Hs.
  - destruct a; [|discriminate]. cbn in E. congruence.
  - destruct a as [|x a].
    + cbn in E. subst. left; reflexivity.
    + injection E as -> E. right. eapply IH; eassumption.
Qed.

Lemma bytes_eqb_true a : forall b, bytes_eqb a b = true -> a = b.
Proof.
  induction a as [|x a IH]; intros [|y b] H; cbn in H; try discriminate; [reflexivity|].
  apply andb_prop in H as [H1 H2]. apply N.eqb_eq in H1. f_equal; auto.
Qed.

Lemma name_eqb_true a : forall b, name_eqb a b = true -> a = b.
Proof.
  induction a as [|x a IH]; intros [|y b] H; cbn in H; try discriminate; [reflexivity|].
  apply andb_prop in H as [H1 H2]. f_equal; auto using bytes_eqb_true.
Qed.

Lemma separates_b_true h fs : separates_b h fs = true -> hash_separates h fs.
Proof.
  unfold separates_b. cbv zeta. intros H s1 s2 [N1 (f1 & a1 & I1 & E1)] [N2 (f2 & a2 & I2 & E2)] Hh.
  assert (K : forall s f a, s <> [] -> In f fs -> f = a ++ s -> In (s, h s) (map (fun s => (s, h s)) (nodup (list_eq_dec (list_eq_dec N.eq_dec)) (flat_map tails fs)))).
  { intros s f a NS I E. apply (in_map (fun s => (s, h s))). apply nodup_In. apply in_flat_map. eauto using tails_in. }
  rewrite forallb_forall in H. specialize (H (s1, h s1) (K s1 f1 a1 N1 I1 E1)). cbn beta in H.
  rewrite forallb_forall in H. specialize (H (s2, h s2) (K s2 f2 a2 N2 I2 E2)). cbn [fst snd] in H.
  apply orb_prop in H as [H|H]; [apply name_eqb_true, H|].
  apply negb_true_iff, N.eqb_neq in H. congruence.
Qed.
