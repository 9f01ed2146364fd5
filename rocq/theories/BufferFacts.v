(** * Lemmas about Buffer.v: what each extraction returns, and a small calculus ([reads]) for
    showing that a parser reads back a given encoding. *)
From Verif Require Import Base Utf8 Buffer BaseFacts.
From Coq Require Import Lia ZifyBool ZifyNat ZifyN.

(** [reads pre suf p bs v]: started just before [bs] in [pre ++ bs ++ suf], the parser [p] returns
    [v] and stops just after [bs]. *)
Definition reads {A} (pre suf : bytes) (p : P A) (bs : bytes) (v : A) : Prop :=
  p (mkbuf (pre ++ bs ++ suf) (length pre))
  = (Ok v, mkbuf (pre ++ bs ++ suf) (length pre + length bs)).

Lemma reads_ret {A} pre suf (v : A) : reads pre suf (ret v) [] v.
Proof. unfold reads, ret. cbn [length]. rewrite Nat.add_0_r. reflexivity. Qed.

Lemma reads_bind {A B} pre suf (p : P A) (f : A -> P B) b1 b2 a v :
  reads pre (b2 ++ suf) p b1 a ->
  reads (pre ++ b1) suf (f a) b2 v ->
  reads pre suf (bind p f) (b1 ++ b2) v.
Proof.
  unfold reads, bind. intros H1 H2. rewrite <- !app_assoc in *. rewrite H1.
  rewrite app_length in H2. rewrite H2. rewrite app_length, Nat.add_assoc. reflexivity.
Qed.

(** The last step of a do-block. *)
Lemma reads_bind_ret {A B} pre suf (p : P A) (f : A -> B) bs a :
  reads pre suf p bs a -> reads pre suf (bind p (fun x => ret (f x))) bs (f a).
Proof. unfold reads, bind. intros ->. reflexivity. Qed.

Lemma reads_lift {A B} pre suf (r : res A) (f : A -> P B) a bs v :
  r = Ok a -> reads pre suf (f a) bs v -> reads pre suf (bind (lift r) f) bs v.
Proof. unfold reads, bind, lift. intros ->. auto. Qed.

Lemma reads_ext {A} pre suf (p : P A) bs bs' v v' :
  bs = bs' -> v = v' -> reads pre suf p bs' v' -> reads pre suf p bs v.
Proof. intros -> ->; auto. Qed.

Lemma reads_bytes pre suf n bs :
  length bs = n -> reads pre suf (extract_bytes n) bs bs.
Proof.
  intros <-. unfold reads, extract_bytes; cbn [data pos].
  destruct (Nat.ltb_spec (length (pre ++ bs ++ suf)) (length pre + length bs)).
  - rewrite !app_length in H; lia.
  - rewrite slice_exact. reflexivity.
Qed.

Lemma reads_u8 pre suf n : n < 256 -> reads pre suf extract_u8 [n] n.
Proof.
  intros. eapply reads_ext; [reflexivity| |apply reads_bind_ret, reads_bytes; reflexivity].
  unfold unbe; cbn [fold_left]. lia.
Qed.
Lemma reads_u16 pre suf n : n < 65536 -> reads pre suf extract_u16 (be 2 n) n.
Proof.
  intros. eapply reads_ext; [reflexivity| |apply reads_bind_ret, reads_bytes, be_length].
  rewrite unbe_be2; auto.
Qed.
Lemma reads_u32 pre suf n : n < 4294967296 -> reads pre suf extract_u32 (be 4 n) n.
Proof.
  intros. eapply reads_ext; [reflexivity| |apply reads_bind_ret, reads_bytes, be_length].
  rewrite unbe_be4; auto.
Qed.

Lemma reads_u8_as {A} pre suf n (f : N -> res A) v :
  n < 256 -> f n = Ok v -> reads pre suf (extract_u8_as f) [n] v.
Proof.
  intros H E. unfold extract_u8_as. replace [n] with ([n] ++ []) by reflexivity.
  eapply reads_bind; [apply reads_u8, H|]. unfold reads, lift. rewrite E. cbn [length].
  rewrite Nat.add_0_r. reflexivity.
Qed.
Lemma reads_u16_as {A} pre suf n (f : N -> res A) v :
  n < 65536 -> f n = Ok v -> reads pre suf (extract_u16_as f) (be 2 n) v.
Proof.
  intros H E. unfold extract_u16_as. rewrite <- (app_nil_r (be 2 n)).
  eapply reads_bind; [apply reads_u16, H|]. unfold reads, lift. rewrite E. cbn [length].
  rewrite Nat.add_0_r. reflexivity.
Qed.

Lemma reads_char_string pre suf s :
  (length s < 256)%nat -> reads pre suf extract_character_string (len8 (length s) :: s) s.
Proof.
  intros H. rewrite len8_id by assumption.
  change (N.of_nat (length s) :: s) with ([N.of_nat (length s)] ++ s).
  eapply reads_bind; [apply reads_u8; lia|]. apply reads_bytes. lia.
Qed.

Lemma reads_string pre suf s :
  (length s < 256)%nat -> utf8_valid s = true ->
  reads pre suf extract_string (len8 (length s) :: s) s.
Proof.
  intros H E. unfold extract_string.
  replace (len8 (length s) :: s) with ((len8 (length s) :: s) ++ []) by apply app_nil_r.
  eapply reads_bind; [apply reads_char_string, H|]. rewrite E. apply reads_ret.
Qed.

Lemma reads_rest pre bs : reads pre [] extract_rest bs bs.
Proof.
  unfold reads, extract_rest.
  replace (remaining _) with (length bs).
  - apply (reads_bytes pre []). reflexivity.
  - unfold remaining; cbn [data pos]. rewrite !app_length; cbn [length]; lia.
Qed.

Lemma reads_repeat {A} (p : P A) pre suf bss vs :
  Forall2 (fun bs v => forall pre suf, reads pre suf p bs v) bss vs ->
  reads pre suf (repeatP (length vs) p) (concat bss) vs.
Proof.
  intros H. revert pre. induction H as [|bs v bss vs Hb HF IH]; intros pre; cbn [length repeatP concat].
  - apply reads_ret.
  - eapply reads_bind; [apply Hb|]. apply reads_bind_ret. apply IH.
Qed.

(** Loops over the rest of the buffer: folding a list of elements, each encoded separately. *)
Lemma reads_loop_map {A B} (step : A -> P A) (enc : B -> bytes) (put : A -> B -> A) :
  forall (l : list B) pre acc,
  (forall done x rest pre', l = done ++ x :: rest ->
     (0 < length (enc x))%nat /\
     forall suf, reads pre' suf (step (fold_left put done acc)) (enc x)
                       (put (fold_left put done acc) x)) ->
  reads pre [] (loop_remaining step acc) (flat_map enc l) (fold_left put l acc).
Proof.
  intros l pre acc H.
  assert (G : forall fuel, (length (flat_map enc l) <= fuel)%nat ->
    reads pre [] (while_remaining fuel step acc) (flat_map enc l) (fold_left put l acc)).
  { revert pre acc H. induction l as [|x l IH]; intros pre acc H fuel Hf.
    - cbn. unfold reads. destruct fuel; cbn [while_remaining];
      unfold remaining; cbn [data pos]; rewrite !app_length; cbn [length];
      rewrite ?Nat.add_0_r, Nat.sub_diag; cbn [Nat.eqb]; rewrite ?Nat.add_0_r; reflexivity.
    - cbn [flat_map fold_left] in *. rewrite app_length in Hf.
      destruct (H [] x l pre eq_refl) as [Hp Hr]. cbn [fold_left] in Hr.
      destruct fuel as [|fuel]; [lia|].
      assert (E : reads pre [] (a <- step acc ;; while_remaining fuel step a)
                        (enc x ++ flat_map enc l) (fold_left put l (put acc x))).
      { eapply reads_bind; [apply Hr|]. apply IH; [|lia].
        intros done y rest pre' ->. apply (H (x :: done) y rest pre'). reflexivity. }
      unfold reads in *. cbn [while_remaining].
      replace (remaining _ =? 0)%nat with false; [exact E|].
      symmetry. apply Nat.eqb_neq. unfold remaining; cbn [data pos].
      rewrite !app_length. lia. }
  unfold reads, loop_remaining. apply G.
  unfold remaining; cbn [data pos]. rewrite !app_length; cbn [length]. lia.
Qed.

(** ** Behaviour on arbitrary buffers *)

Definition inv (b : buf) : Prop := (pos b <= length (data b))%nat.

(** Every parser keeps the bytes and stays inside. *)
Definition keeps {A} (p : P A) : Prop := forall b r b',
  inv b -> p b = (r, b') -> data b' = data b /\ inv b'.

Lemma keeps_ret {A} (a : A) : keeps (ret a).
Proof. intros b r b' I E. inversion E; subst; auto. Qed.
Lemma keeps_fail {A} e : keeps (@fail A e).
Proof. intros b r b' I E. inversion E; subst; auto. Qed.
Lemma keeps_lift {A} (r : res A) : keeps (lift r).
Proof. intros b r' b' I E. inversion E; subst; auto. Qed.
Lemma keeps_bind {A B} (p : P A) (f : A -> P B) :
  keeps p -> (forall a, keeps (f a)) -> keeps (bind p f).
Proof.
  intros Hp Hf b r b' I. unfold bind. destruct (p b) as [r1 b1] eqn:E1.
  destruct (Hp _ _ _ I E1) as [D1 I1].
  destruct r1; intros E; [|inversion E; subst; auto..].
  destruct (Hf _ _ _ _ I1 E) as [D2 I2]. split; [congruence|assumption].
Qed.
Lemma keeps_bytes n : keeps (extract_bytes n).
Proof.
  intros b r b' I. unfold extract_bytes.
  destruct (Nat.ltb_spec (length (data b)) (pos b + n)); intros E; inversion E; subst; auto.
Qed.
Lemma keeps_u8 : keeps extract_u8.
Proof. apply keeps_bind; [apply keeps_bytes|intro; apply keeps_ret]. Qed.
Lemma keeps_u16 : keeps extract_u16.
Proof. apply keeps_bind; [apply keeps_bytes|intro; apply keeps_ret]. Qed.
Lemma keeps_u32 : keeps extract_u32.
Proof. apply keeps_bind; [apply keeps_bytes|intro; apply keeps_ret]. Qed.
Lemma keeps_u8_as {A} (f : N -> res A) : keeps (extract_u8_as f).
Proof. apply keeps_bind; [apply keeps_u8|intro; apply keeps_lift]. Qed.
Lemma keeps_u16_as {A} (f : N -> res A) : keeps (extract_u16_as f).
Proof. apply keeps_bind; [apply keeps_u16|intro; apply keeps_lift]. Qed.
Lemma keeps_char_string : keeps extract_character_string.
Proof. apply keeps_bind; [apply keeps_u8|intro; apply keeps_bytes]. Qed.
Lemma keeps_string : keeps extract_string.
Proof. apply keeps_bind; [apply keeps_char_string|]. intro a. destruct (utf8_valid a);
  [apply keeps_ret|apply keeps_fail]. Qed.
Lemma keeps_rest : keeps extract_rest.
Proof. intros b r b' I E. eapply keeps_bytes; eauto. Qed.
Lemma keeps_repeat {A} n (p : P A) : keeps p -> keeps (repeatP n p).
Proof. intros H. induction n; cbn [repeatP]; [apply keeps_ret|].
  apply keeps_bind; [assumption|intro]. apply keeps_bind; [assumption|intro; apply keeps_ret]. Qed.
Lemma keeps_while {A} (step : A -> P A) : (forall a, keeps (step a)) ->
  forall fuel acc, keeps (while_remaining fuel step acc).
Proof.
  intros H. induction fuel; intros acc b r b' I; cbn [while_remaining];
    destruct (remaining b =? 0)%nat; intros E; try (inversion E; subst; auto; fail).
  eapply (keeps_bind (step acc)); eauto.
Qed.
Lemma keeps_loop {A} (step : A -> P A) acc : (forall a, keeps (step a)) ->
  keeps (loop_remaining step acc).
Proof. intros H b r b' I E. eapply keeps_while; eauto. Qed.

(** Successful extraction, seen from the bytes. *)
Lemma extract_bytes_ok n b v b' :
  extract_bytes n b = (Ok v, b') ->
  (pos b + n <= length (data b))%nat /\ v = slice (data b) (pos b) n /\
  b' = mkbuf (data b) (pos b + n).
Proof.
  unfold extract_bytes. destruct (Nat.ltb_spec (length (data b)) (pos b + n)); intros E; inversion E.
  auto.
Qed.
