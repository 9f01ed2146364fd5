(** * Confinement of reads to the RDLENGTH window. *)
From Verif Require Import Base Utf8 Buffer Fqdn Types RData Packet BaseFacts BufferFacts FqdnLoop.
From Coq Require Import Lia ZifyBool ZifyNat ZifyN.

(** Both messages have at least [e] octets and the first [e] are the same. *)
Definition same_upto (e : nat) (d1 d2 : bytes) : Prop :=
  firstn e d1 = firstn e d2 /\ (e <= length d1)%nat /\ (e <= length d2)%nat.

Lemma same_upto_le e e' d1 d2 : (e' <= e)%nat -> same_upto e d1 d2 -> same_upto e' d1 d2.
Proof.
  intros H (E & L1 & L2). split; [|lia].
  rewrite <- (firstn_firstn d1 e' e), <- (firstn_firstn d2 e' e) || idtac.
  replace e' with (Nat.min e' e) by lia. rewrite <- !firstn_firstn, E. reflexivity.
Qed.

Lemma framed_window {A} (p : P A) len d1 d2 q : same_upto (q + len) d1 d2 ->
  fst (framed len p (mkbuf d1 q)) = fst (framed len p (mkbuf d2 q)) /\
  pos (snd (framed len p (mkbuf d1 q))) = pos (snd (framed len p (mkbuf d2 q))).
Proof.
  intros (E & L1 & L2). unfold framed, sub_buffer, advance, bind. cbn [data pos].
  destruct (Nat.ltb_spec (length d1) (q + len)); [lia|]. destruct (Nat.ltb_spec (length d2) (q + len)); [lia|].
  rewrite E. destruct (p _) as [[a|e| |] b]; split; reflexivity.
Qed.

Lemma slice_same e d1 d2 p n : same_upto e d1 d2 -> (p + n <= e)%nat -> slice d1 p n = slice d2 p n.
Proof.
  intros S H. apply (same_upto_le e (p + n)) in S; [|assumption]. destruct S as (E & L1 & L2).
  unfold slice. rewrite !firstn_skipn_comm, E. reflexivity.
Qed.

(** A parser that succeeds, ending at [e], sees only the octets before [e]. *)
Definition local {A} (p : P A) : Prop := forall d1 d2 q v e e',
  p (mkbuf d1 q) = (Ok v, mkbuf d1 e) -> (e <= e')%nat -> same_upto e' d1 d2 -> p (mkbuf d2 q) = (Ok v, mkbuf d2 e).

Lemma local_bytes n : local (extract_bytes n).
Proof.
  intros d1 d2 q v e e' E He S. apply extract_bytes_ok in E as (L & -> & E). cbn [data pos] in *.
  inversion E; subst. unfold extract_bytes. cbn [data pos].
  destruct S as (S1 & S2 & S3). destruct (Nat.ltb_spec (length d2) (q + n)); [lia|].
  erewrite slice_same; [reflexivity| |exact He]. apply conj; [|split]; eauto.
Qed.

(** Every parser that keeps the data and moves forward on success. *)
Definition forward {A} (p : P A) : Prop := forall d q v b', p (mkbuf d q) = (Ok v, b') ->
  data b' = d /\ (q <= pos b')%nat.

Lemma forward_bytes n : forward (extract_bytes n).
Proof. intros d q v b' E. apply extract_bytes_ok in E as (_ & _ & ->). cbn. split; [reflexivity|lia]. Qed.
Lemma forward_ret {A} (a : A) : forward (ret a).
Proof. intros d q v b' E. inversion E; subst. cbn. auto. Qed.
Lemma forward_lift {A} (r : res A) : forward (lift r).
Proof. intros d q v b' E. inversion E; subst. cbn. auto. Qed.
Lemma forward_bind {A B} (p : P A) (f : A -> P B) : forward p -> (forall a, forward (f a)) -> forward (bind p f).
Proof.
  intros Hp Hf d q v b'. unfold bind. destruct (p (mkbuf d q)) as [[a|e| |] [d1 q1]] eqn:E1; try discriminate.
  apply Hp in E1 as [D1 L1]. cbn in D1, L1. subst d1. intros E. apply Hf in E as [D2 L2]. cbn in L2. split; [assumption|lia].
Qed.
Lemma local_ret {A} (a : A) : local (ret a).
Proof. intros d1 d2 q v e e' E _ _. inversion E; subst. reflexivity. Qed.
Lemma local_lift {A} (r : res A) : local (lift r).
Proof. intros d1 d2 q v e e' E _ _. inversion E; subst. reflexivity. Qed.
Lemma local_bind {A B} (p : P A) (f : A -> P B) : forward p -> local p ->
  (forall a, forward (f a)) -> (forall a, local (f a)) -> local (bind p f).
Proof.
  intros Fp Lp Ff Lf d1 d2 q v e e'. unfold bind. destruct (p (mkbuf d1 q)) as [[a|x| |] [d q1]] eqn:E1; try discriminate.
  destruct (Fp _ _ _ _ E1) as [D _]. cbn in D. subst d. intros E He S.
  destruct (Ff _ _ _ _ _ E) as [_ G]. cbn in G.
  rewrite (Lp _ d2 _ _ _ e' E1); [|lia|assumption]. eapply Lf; eassumption.
Qed.
Lemma forward_u16 : forward extract_u16.
Proof. apply forward_bind; [apply forward_bytes|intro; apply forward_ret]. Qed.
Lemma local_u16 : local extract_u16.
Proof. apply local_bind; [apply forward_bytes|apply local_bytes|intro; apply forward_ret|intro; apply local_ret]. Qed.

Lemma framed_ok {A} (p : P A) len b v b' : framed len p b = (Ok v, b') ->
  b' = mkbuf (data b) (pos b + len) /\ (pos b + len <= length (data b))%nat.
Proof.
  unfold framed, sub_buffer, advance, bind. destruct (Nat.ltb_spec (length (data b)) (pos b + len)); [discriminate|].
  destruct (p _) as [[a|e| |] b1]; try discriminate. intros E; inversion E; subst. auto.
Qed.
Lemma forward_framed {A} (p : P A) len : forward (framed len p).
Proof. intros d q v b' E. apply framed_ok in E as [-> _]. cbn. split; [reflexivity|lia]. Qed.
Lemma local_framed {A} (p : P A) len : local (framed len p).
Proof.
  intros d1 d2 q v e e' E He S. pose proof (framed_ok _ _ _ _ _ E) as [Eb L]. cbn in Eb, L. inversion Eb; subst.
  destruct (framed_window p len d1 d2 q) as [W _]; [eapply same_upto_le; [exact He|exact S]|].
  rewrite E in W. cbn in W. destruct (framed len p (mkbuf d2 q)) as [r b2] eqn:E2. cbn in W. subst r.
  apply framed_ok in E2 as [-> _]. reflexivity.
Qed.

(** The fields after the owner name. *)
Definition rr_rest (c : cfg) (f : fqdn) : P rr :=
  t <- extract_u16_as (rtype_try_from c) ;;
  v <- extract_u16 ;;
  ttlb <- extract_bytes 4 ;;
  len <- extract_u16 ;;
  d <- framed (N.to_nat len) (rdata_from c t) ;;
  let k := rr_class_field_parse c v in
  ret (mkRR f t (snd k) (fst k) (unbe ttlb) d).

Lemma forward_rr_rest c f : forward (rr_rest c f).
Proof.
  unfold rr_rest, extract_u16_as.
  repeat (apply forward_bind; [first [apply forward_u16|apply forward_bytes|apply forward_framed|
    apply forward_bind; [apply forward_u16|intro; apply forward_lift]]|intro]). apply forward_ret.
Qed.
Lemma local_rr_rest c f : local (rr_rest c f).
Proof.
  unfold rr_rest, extract_u16_as.
  repeat first
   [apply local_ret | apply local_lift | apply local_u16 | apply local_bytes | apply local_framed
   |apply forward_ret|apply forward_lift|apply forward_u16|apply forward_bytes|apply forward_framed
   |apply forward_bind; [|intro]
   |apply local_bind; [| |intro|intro]].
Qed.

Lemma rr_window c d1 d2 q r e : rr_try_from c (mkbuf d1 q) = (Ok r, mkbuf d1 e) ->
  (q <= length d1)%nat -> same_upto e d1 d2 ->
  fst (extract_fqdn (mkbuf d1 q)) = fst (extract_fqdn (mkbuf d2 q)) /\
    pos (snd (extract_fqdn (mkbuf d1 q))) = pos (snd (extract_fqdn (mkbuf d2 q))) ->
  (q <= length d2)%nat ->
  rr_try_from c (mkbuf d2 q) = (Ok r, mkbuf d2 e).
Proof.
  intros E H1 S [N1 N2] H2. change (rr_try_from c) with (bind extract_fqdn (rr_rest c)) in *. unfold bind in *.
  destruct (extract_fqdn (mkbuf d1 q)) as [r1 [d1' q1]] eqn:E1.
  destruct (extract_fqdn (mkbuf d2 q)) as [r2 [d2' q2]] eqn:E2. cbn in N1, N2. subst r2 q2.
  apply keeps_fqdn in E1 as [D1 _]; [|exact H1]. apply keeps_fqdn in E2 as [D2 _]; [|exact H2].
  cbn in D1, D2. subst. destruct r1 as [f|x| |]; try discriminate.
  eapply local_rr_rest; [exact E|apply le_n|assumption].
Qed.
