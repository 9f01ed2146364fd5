(** * Proofs of the name properties that need more than one lemma. *)
From Verif Require Import Base Utf8 Buffer Fqdn BaseFacts Utf8Facts BufferFacts NameSpec FqdnLoop FqdnFacts
  WalkFacts TextFacts CompressSpec ChunkFacts.
From Coq Require Import Lia ZifyBool ZifyNat ZifyN.

Lemma name_roundtrip f pre suf : Forall (fun l : bytes => 1 <= length l <= 191)%nat f ->
  let d := pre ++ fqdn_to_bytes f ++ suf in
  extract_fqdn (mkbuf d (length pre)) = (Ok f, mkbuf d (length pre + length (fqdn_to_bytes f))).
Proof. intros H. apply reads_fqdn, H. Qed.

Lemma name_roundtrip_empty f pre suf : Forall (fun l : bytes => length l <= 191)%nat f ->
  let d := pre ++ fqdn_to_bytes f ++ suf in
  extract_fqdn (mkbuf d (length pre)) =
  (Ok (filter nonempty f), mkbuf d (length pre + length (fqdn_to_bytes f))).
Proof. intros H. apply reads_fqdn_gen, H. Qed.

Lemma name_wire_format f : Forall (fun l : bytes => 1 <= length l <= 255)%nat f ->
  fqdn_to_bytes f = flat_map (fun l => N.of_nat (length l) :: l) f ++ [0].
Proof.
  intros H. rewrite fqdn_to_bytes_eq. f_equal.
  induction H as [|l f Hl Hf IH]; [reflexivity|].
  cbn [filter]. destruct l as [|b l]; [cbn in Hl; lia|]. cbn [nonempty flat_map app].
  rewrite IH. unfold label_bytes, len8, u8. rewrite N.mod_small by lia. reflexivity.
Qed.

(** A label of 192 or more octets does not survive. *)
Lemma long_label_lost l : (192 <= length l <= 255)%nat -> 
  fst (extract_fqdn (mkbuf (fqdn_to_bytes [l]) 0)) <> Ok [l].
Proof.
  intros H. assert (E : fqdn_to_bytes [l] = N.of_nat (length l) :: l ++ [0]).
  { rewrite name_wire_format by (constructor; [lia|constructor]). cbn [flat_map]. rewrite app_nil_r. reflexivity. }
  rewrite E. clear E. set (dd := N.of_nat (length l) :: l ++ [0]).
  assert (L : (length dd <? 0 + 2)%nat = false)
    by (subst dd; cbn [length]; rewrite app_length; cbn [length]; lia).
  assert (N0 : nth_error dd 0 = Some (N.of_nat (length l))) by reflexivity.
  assert (M : (N.land (N.of_nat (length l)) COMPRESSION_MASK =? COMPRESSION_MASK) = true)
    by (rewrite mask_byte by lia; lia).
  unfold extract_fqdn. cbn [data pos]. unfold fqdn_fuel.
  replace (2 * length dd + 3)%nat with (S (2 * length dd + 2)) by lia.
  rewrite loop_step. unfold step. rewrite N0, M, L.
  destruct (_ <=? _)%nat eqn:E2; [cbn; congruence|].
  assert (T : N.to_nat (N.land (unbe (slice dd 0 2)) (65535 - COMPRESSION_MASK_U16)) = 0%nat) by lia.
  rewrite T. cbn [app].
  assert (HD : forall k acc, fst (fqdn_loop dd k acc (Some (0 + 1)%nat) 0) = Diverge).
  { induction k as [|k IHk]; intros acc; [reflexivity|].
    rewrite loop_step. unfold step. rewrite N0, M, L, E2, T. apply IHk. }
  specialize (HD (2 * length dd + 2)%nat []).
  destruct (fqdn_loop dd _ _ _ _) as [r q]. cbn [fst] in *. congruence.
Qed.

(** RFC 1035 names are accepted. *)
Lemma rfc_accepted d p ls q : rfc_name_at d p ls q -> extract_fqdn (mkbuf d p) = (Ok ls, mkbuf d q).
Proof.
  intros H. apply extract_fqdn_complete, strict_name. eapply strict_mono; [|exact H]. lia.
Qed.

Lemma hop_small d o p s : Forall (fun b => b < 192) d -> hop d (o, p) s -> fst s = o /\ (p < snd s)%nat.
Proof.
  intros HS H. assert (HP : forall p t, pointer_at d p t -> False).
  { intros p' t (a & b & Ha & Hr & _). apply nth_error_In in Ha. rewrite Forall_forall in HS.
    specialize (HS _ Ha). lia. }
  inversion H; subst; cbn; [split; [reflexivity|lia]|exfalso; eauto|exfalso; eauto].
Qed.

Lemma hops_small d o p s : Forall (fun b => b < 192) d -> hops d (o, p) s -> (p <= snd s)%nat.
Proof.
  intros HS H. remember (o, p) as a. revert o p Heqa.
  induction H as [|a s' s'' H1 H2 IH]; intros o p ->; [cbn; lia|].
  destruct s' as [o' p']. apply hop_small in H1; [|assumption]. cbn in H1.
  specialize (IH _ _ eq_refl). lia.
Qed.

Lemma no_pointer_terminates d p : Forall (fun b => b < 192) d ->
  fst (extract_fqdn (mkbuf d p)) <> Diverge.
Proof.
  intros HS HD.
  assert (HB : byte_list d) by (eapply Forall_impl; [|exact HS]; cbn; intros; lia).
  apply fqdn_diverge_iff in HD; [|assumption].
  destruct HD as ([o q] & [o' q'] & H1 & H2 & H3).
  apply hop_small in H2; [|assumption]. apply hops_small in H3; [|assumption]. cbn in *. lia.
Qed.

(** The two-octet message [192; 0], and a message that makes the label list grow for ever. *)
Lemma loop_forever : forall fuel, fst (fqdn_loop [192; 0] fuel [] None 0) = Diverge.
Proof. apply diverge_forever. vm_compute. reflexivity. Qed.

Lemma grows_forever n : forall fuel acc,
  fqdn_loop [1; 97; 192; 0] (2 * n + fuel) acc (Some 3%nat) 0 =
  fqdn_loop [1; 97; 192; 0] fuel (acc ++ repeat [97] n) (Some 3%nat) 0.
Proof.
  induction n as [|n IH]; intros fuel acc.
  - cbn [repeat]. rewrite app_nil_r. reflexivity.
  - replace (2 * S n + fuel)%nat with (S (S (2 * n + fuel))) by lia.
    rewrite loop_step. change (step [1; 97; 192; 0] (Some 3%nat) 0) with (Go [[97]] (Some 3%nat) 2). cbn iota.
    rewrite loop_step. change (step [1; 97; 192; 0] (Some 3%nat) 2) with (Go [] (Some 3%nat) 0). cbn iota.
    rewrite app_nil_r, IH. rewrite <- app_assoc. reflexivity.
Qed.

Lemma grows_unbounded n fuel :
  fqdn_loop [1; 97; 192; 0] (2 * S n + fuel) [] None 0 =
  fqdn_loop [1; 97; 192; 0] fuel (repeat [97] (S n)) (Some 3%nat) 0.
Proof.
  replace (2 * S n + fuel)%nat with (S (S (2 * n + fuel))) by lia.
  rewrite loop_step. change (step [1; 97; 192; 0] None 0) with (Go [[97]] None 2). cbn iota.
  rewrite loop_step. change (step [1; 97; 192; 0] None 2) with (Go [] (Some 3%nat) 0). cbn iota.
  rewrite app_nil_r, grows_forever. reflexivity.
Qed.

(** Dots. *)
Lemma dots_irrelevant a b :
  fqdn_new (46 :: a) = fqdn_new a /\ fqdn_new (a ++ [46]) = fqdn_new a /\
  fqdn_new (a ++ 46 :: 46 :: b) = fqdn_new (a ++ 46 :: b).
Proof.
  split; [|split].
  - apply (fqdn_new_app [] a).
  - change [46] with (46 :: []). rewrite fqdn_new_app, fqdn_new_nil, app_nil_r. reflexivity.
  - rewrite !fqdn_new_app. reflexivity.
Qed.

Lemma new_to_string s : fqdn_new (fqdn_display (fqdn_new s)) = fqdn_new s.
Proof. apply fqdn_new_display, fqdn_new_labels. Qed.

(** Splitting at dots: the labels of [s] are exactly what one gets by cutting [s] at every dot. *)
Lemma fqdn_new_pieces ls : Forall (fun l => ~ In 46 l) ls ->
  fqdn_new (match ls with [] => [] | l :: r => l ++ flat_map (fun x => 46 :: x) r end) =
  filter nonempty ls.
Proof.
  destruct ls as [|l r]; [reflexivity|]. intros H. inversion H as [|? ? Hl Hr]; subst. clear H.
  revert l Hl. induction Hr as [|x r Hx Hr IH]; intros l Hl.
  - cbn [flat_map]. rewrite app_nil_r. destruct l as [|b l]; [reflexivity|].
    rewrite fqdn_new_label by (congruence || assumption). reflexivity.
  - cbn [flat_map app]. rewrite fqdn_new_app, IH by assumption.
    destruct l as [|b l]; [reflexivity|].
    rewrite fqdn_new_label by (congruence || assumption). reflexivity.
Qed.

(** ** C14: what goes wrong without the side conditions *)
Definition far_chunks (z : bytes) : list chunk := [Raw (0 :: z); Name [[97]]; Name [[97]]].

Lemma far_fails h z : N.of_nat (length z) = 16383 -> ~ all_read_back h (far_chunks z).
Proof.
  intros Hz. unfold all_read_back, far_chunks. cbn [write_chunks app].
  cbn [fqdn_to_bytes_compressed names_get names_insert].
  rewrite N.eqb_refl. intros F.
  assert (P : pointer_bytes (length (0 :: z)) = [192; 0]).
  { unfold pointer_bytes. cbn [length]. replace (N.of_nat (S (length z))) with 16384 by lia. reflexivity. }
  rewrite P in F. cbn [write_chunks app] in F.
  apply Forall_cons_iff in F as [_ F]. apply Forall_cons_iff in F as [F _].
  change (len8 (length [97])) with 1 in F.
  set (w := (0 :: z) ++ [1; 97; 0]) in *.
  assert (E : extract_fqdn (mkbuf (w ++ [192; 0]) (length w)) = (Ok [], mkbuf (w ++ [192; 0]) (length w + 2))).
  { apply extract_fqdn_complete. apply (name_ptr _ _ _ 0).
    - exists 192, 0. rewrite nth_error_app2 by lia. rewrite nth_error_app2 by lia.
      replace (length w - length w)%nat with 0%nat by lia.
      replace (length w + 1 - length w)%nat with 1%nat by lia.
      split; [reflexivity|]. split; [lia|]. split; [reflexivity|]. split; [lia|reflexivity].
    - lia.
    - apply tail_root. reflexivity. }
  pose proof (eq_trans (eq_sym F) E) as C. discriminate C.
Qed.

Lemma empty_label_fails h : ~ all_read_back h [Name [[]; [97]]].
Proof.
  unfold all_read_back. cbn [write_chunks]. 
  destruct (fqdn_to_bytes_compressed h [[]; [97]] [] (length (@nil N))) as [bs m'] eqn:E.
  cbn [write_chunks]. intros F. inversion F as [|? ? H _]; subst. clear F.
  assert (B : exists r, bs = 0 :: r).
  { cbn [fqdn_to_bytes_compressed names_get] in E.
    destruct (names_get (h [[97]]) _) in E; injection E as <- _; eexists; reflexivity. }
  destruct B as [r ->]. cbn [length app] in H.
  assert (E2 : extract_fqdn (mkbuf (0 :: r) 0) = (Ok [], mkbuf (0 :: r) 1)).
  { apply extract_fqdn_complete. apply (name_root (0 :: r) 191 0). reflexivity. }
  rewrite E2 in H. discriminate.
Qed.

Lemma collision_fails : ~ all_read_back (fun _ => 7) [Name [[97]]; Name [[98]]].
Proof.
  unfold all_read_back.
  assert (E : write_chunks (fun _ => 7) [Name [[97]]; Name [[98]]] [] [] =
              ([1; 97; 0; 192; 0], [(0%nat, [[97]], 3%nat); (3%nat, [[98]], 5%nat)])) by reflexivity.
  rewrite E. intros F. apply Forall_cons_iff in F as [_ F]. apply Forall_cons_iff in F as [F _].
  vm_compute in F. discriminate F.
Qed.
