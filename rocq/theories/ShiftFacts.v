(** * Lemmas for C80: a message that stands behind other octets. *)
From Coq Require Import Lia ZifyNat ZifyN.
From Verif Require Import Base Utf8 Buffer Fqdn Header Types RDataBasic Bitmap Svcb RDataSec RData Packet BaseFacts BufferFacts NameSpec FqdnFacts FqdnLoop.

(** [b] with [pre] in front of everything. *)
Definition behind (pre : bytes) (b : buf) : buf := mkbuf (pre ++ data b) (length pre + pos b).
Definition plain (b : buf) : Prop := Forall (fun x => x < 192) (data b) /\ (pos b <= length (data b))%nat.
Definition shifts {A} (p : P A) : Prop := forall pre b, plain b -> p (behind pre b) = (fst (p b), behind pre (snd (p b))) /\ plain (snd (p b)).

Lemma sh_ret {A} (a : A) : shifts (ret a). Proof. intros pre b H. split; [reflexivity|exact H]. Qed.
Lemma sh_fail {A} e : shifts (@fail A e). Proof. intros pre b H. split; [reflexivity|exact H]. Qed.
Lemma sh_lift {A} (r : res A) : shifts (lift r). Proof. intros pre b H. split; [reflexivity|exact H]. Qed.
Lemma sh_bind {A B} (p : P A) (f : A -> P B) : shifts p -> (forall a, shifts (f a)) -> shifts (bind p f).
Proof.
  intros H K pre b G. unfold bind. destruct (H pre b G) as [-> G']. destruct (p b) as [[a|e| |] b']; cbn [fst snd] in *; try (split; [reflexivity|exact G']). apply K, G'.
Qed.
Lemma sh_pmap {A B} (f : A -> B) (p : P A) : shifts p -> shifts (pmap f p).
Proof. intros H. apply sh_bind; [exact H|]. intros a. apply sh_ret. Qed.
Lemma remaining_behind pre b : remaining (behind pre b) = remaining b.
Proof. unfold remaining, behind. cbn [data pos]. rewrite app_length. lia. Qed.
Lemma slice_behind pre (d : bytes) p n : slice (pre ++ d) (length pre + p) n = slice d p n.
Proof. unfold slice. rewrite skipn_app, skipn_all2 by lia. replace (length pre + p - length pre)%nat with p by lia. reflexivity. Qed.
Lemma sh_bytes n : shifts (extract_bytes n).
Proof.
  intros pre b (F & L). unfold extract_bytes, behind. cbn [data pos]. rewrite app_length, slice_behind.
  destruct (Nat.ltb_spec (length (data b)) (pos b + n)), (Nat.ltb_spec (length pre + length (data b)) (length pre + pos b + n)); try lia; cbn [fst snd data pos].
  - split; [reflexivity|split; assumption].
  - rewrite Nat.add_assoc. split; [reflexivity|]. split; cbn [data pos]; [exact F|lia].
Qed.
Lemma sh_advance n : shifts (advance n).
Proof.
  intros pre b (F & L). unfold advance, behind. cbn [data pos]. rewrite app_length.
  destruct (Nat.ltb_spec (length (data b)) (pos b + n)), (Nat.ltb_spec (length pre + length (data b)) (length pre + pos b + n)); try lia; cbn [fst snd data pos].
  - split; [reflexivity|split; assumption].
  - rewrite Nat.add_assoc. split; [reflexivity|]. split; cbn [data pos]; [exact F|lia].
Qed.
Lemma sh_rest : shifts extract_rest.
Proof. intros pre b H. unfold extract_rest. rewrite remaining_behind. apply sh_bytes, H. Qed.
Lemma sh_fuel {A} (p : nat -> P A) : (forall n, shifts (p n)) -> shifts (fun b => p (remaining b) b).
Proof. intros H pre b G. rewrite remaining_behind. apply H, G. Qed.
Lemma sh_while {A} (s : A -> P A) : (forall a, shifts (s a)) -> forall f a, shifts (while_remaining f s a).
Proof.
  intros H. induction f as [|f IH]; intros a pre b G; cbn [while_remaining]; rewrite remaining_behind; destruct (remaining b =? 0)%nat;
    try (split; [reflexivity|exact G]). apply sh_bind; [apply H|exact IH|exact G].
Qed.
Lemma sh_loop {A} (s : A -> P A) a : (forall a, shifts (s a)) -> shifts (loop_remaining s a).
Proof. intros H. apply (sh_fuel (fun n => while_remaining n s a)). intros n. apply sh_while, H. Qed.
Lemma sh_repeat {A} (p : P A) n : shifts p -> shifts (repeatP n p).
Proof. intros H. induction n as [|n IH]; [apply sh_ret|]. apply sh_bind; [exact H|]. intros a. apply sh_bind; [exact IH|]. intros l. apply sh_ret. Qed.

(** Names: where no octet is 192 or more there is no pointer, and the loop only goes forward. *)
Lemma name_behind pre d : Forall (fun x => x < 192) d -> forall f f' acc p, (length d < f + p)%nat -> (length d < f' + p)%nat -> (p <= length d)%nat ->
  fqdn_loop (pre ++ d) f' acc None (length pre + p) = (fst (fqdn_loop d f acc None p), (length pre + snd (fqdn_loop d f acc None p))%nat) /\
  (snd (fqdn_loop d f acc None p) <= length d)%nat.
Proof.
  intros F. induction f as [|f IH]; intros f' acc p L L' P; [lia|]. destruct f' as [|f']; [lia|]. cbn [fqdn_loop].
  rewrite nth_error_app2 by lia. replace (length pre + p - length pre)%nat with p by lia.
  destruct (nth_error d p) as [n|] eqn:E; [|split; [reflexivity|exact P]]. assert (Pl : (p < length d)%nat) by (apply nth_error_Some; congruence).
  assert (Ln : n < 192) by (apply (proj1 (Forall_forall _ _) F n), (nth_error_In _ _ E)).
  rewrite mask_byte by lia. destruct (N.leb_spec 192 n); [lia|]. rewrite app_length.
  destruct (Nat.ltb_spec (length d) (p + N.to_nat n)), (Nat.ltb_spec (length pre + length d) (length pre + p + N.to_nat n)); try lia; [split; [reflexivity|exact P]|].
  destruct (N.eqb_spec n 0); [cbn [fst snd]; split; [f_equal; lia|lia]|].
  destruct (Nat.ltb_spec (length d) (p + 1 + N.to_nat n)), (Nat.ltb_spec (length pre + length d) (length pre + p + 1 + N.to_nat n)); try lia; [split; [reflexivity|exact P]|].
  replace (length pre + p + 1)%nat with (length pre + (p + 1))%nat by lia. rewrite slice_behind.
  replace (length pre + (p + 1) + N.to_nat n)%nat with (length pre + (p + 1 + N.to_nat n))%nat by lia. apply IH; lia.
Qed.
Lemma sh_fqdn : shifts extract_fqdn.
Proof.
  intros pre b (F & L). unfold extract_fqdn, behind. cbn [data pos].
  destruct (name_behind pre (data b) F (fqdn_fuel (data b)) (fqdn_fuel (pre ++ data b)) [] (pos b)) as [-> G]; try exact L; try (unfold fqdn_fuel; rewrite ?app_length; lia).
  destruct (fqdn_loop (data b) _ [] None (pos b)) as [r q]. cbn [fst snd data pos] in *. split; [reflexivity|]. split; assumption.
Qed.
Lemma sub_behind pre b n : sub_buffer (behind pre b) n = match sub_buffer b n with Ok sb => Ok (behind pre sb) | r => r end.
Proof.
  unfold sub_buffer, behind. cbn [data pos]. rewrite app_length.
  destruct (Nat.ltb_spec (length (data b)) (pos b + n)), (Nat.ltb_spec (length pre + length (data b)) (length pre + pos b + n)); try lia; [reflexivity|].
  cbn [data pos]. rewrite firstn_app, firstn_all2 by lia. replace (length pre + pos b + n - length pre)%nat with (pos b + n)%nat by lia. reflexivity.
Qed.
Lemma sub_plain b n sb : plain b -> sub_buffer b n = Ok sb -> plain sb /\ pos sb = pos b /\ (length (data sb) <= length (data b))%nat.
Proof.
  intros (F & L). unfold sub_buffer. destruct (Nat.ltb_spec (length (data b)) (pos b + n)); [discriminate|]. intros [= <-]. unfold plain. cbn [data pos].
  rewrite firstn_length. repeat split; try lia. rewrite <- (firstn_skipn (pos b + n) (data b)) in F. apply Forall_app in F. apply F.
Qed.
Lemma sh_framed {A} n (p : P A) : shifts p -> shifts (framed n p).
Proof.
  intros H pre b G. unfold framed. rewrite sub_behind. destruct (sub_buffer b n) as [sb| | |] eqn:E; try (split; [reflexivity|exact G]).
  destruct (sub_plain b n sb G E) as (G' & _). destruct (H pre sb G') as [-> _]. destruct (p sb) as [[a|e| |] b']; cbn [fst snd]; try (split; [reflexivity|exact G]).
  apply sh_bind; [apply sh_advance|intros; apply sh_ret|exact G].
Qed.

Create HintDb sh discriminated.
#[local] Hint Resolve sh_ret sh_fail sh_lift sh_bytes sh_advance sh_rest sh_loop sh_repeat sh_fqdn : sh.
Ltac sh := repeat first [solve [auto with sh nocore]|apply sh_loop; intros ?|apply sh_repeat|apply sh_bind; [|intros ?]|
  match goal with |- shifts (if ?x then _ else _) => destruct x end|match goal with |- shifts (match ?x with _ => _ end) => destruct x end].
Lemma sh_u8 : shifts extract_u8. Proof. unfold extract_u8. sh. Qed.
Lemma sh_u16 : shifts extract_u16. Proof. unfold extract_u16. sh. Qed.
Lemma sh_u32 : shifts extract_u32. Proof. unfold extract_u32. sh. Qed.
#[local] Hint Resolve sh_u8 sh_u16 sh_u32 : sh.
Lemma sh_u8_as {A} (f : N -> res A) : shifts (extract_u8_as f). Proof. unfold extract_u8_as. sh. Qed.
Lemma sh_u16_as {A} (f : N -> res A) : shifts (extract_u16_as f). Proof. unfold extract_u16_as. sh. Qed.
Lemma sh_cs : shifts extract_character_string. Proof. unfold extract_character_string. sh. Qed.
#[local] Hint Resolve sh_u8_as sh_u16_as sh_cs : sh.
Lemma sh_string : shifts extract_string. Proof. unfold extract_string. sh. Qed.
#[local] Hint Resolve sh_string : sh.
Lemma sh_header : shifts header_try_from. Proof. unfold header_try_from. sh. Qed.
Lemma sh_hip : shifts hip_try_from.
Proof.
  unfold hip_try_from. sh. intros pre b G. rewrite remaining_behind. destruct (remaining b =? 0)%nat; [split; [reflexivity|exact G]|].
  revert pre b G. apply sh_bind; [|intros; apply sh_ret]. apply sh_loop. intros x. unfold names_step. sh.
Qed.
Lemma sh_types c : shifts (types_try_from c).
Proof. unfold types_try_from, window_step. sh. Qed.
Lemma sh_mandatory c f : forall n acc, shifts (mandatory_loop c f n acc).
Proof.
  induction f as [|f IH]; intros n acc pre b G; cbn [mandatory_loop]; destruct (n =? 0); try (split; [reflexivity|exact G]).
  revert pre b G. apply sh_bind; [apply sh_u16_as|]. intros k. apply sh_bind; [apply sh_lift|]. intros l. apply IH.
Qed.
Lemma sh_alpn c f : forall n acc, shifts (alpn_loop c f n acc).
Proof.
  induction f as [|f IH]; intros n acc pre b G; cbn [alpn_loop]; destruct (n =? 0); try (split; [reflexivity|exact G]).
  revert pre b G. apply sh_bind; [apply sh_u8|]. intros k. apply sh_bind; [apply sh_bytes|]. intros l. apply sh_bind; [apply sh_lift|]. intros ?. apply IH.
Qed.
Lemma sh_param c : shifts (param_try_from c).
Proof.
  unfold param_try_from. sh.
  - apply (sh_fuel (fun n => mandatory_loop c (S n) _ [])). intros n. apply sh_mandatory.
  - apply (sh_fuel (fun n => alpn_loop c (S n) _ [])). intros n. apply sh_alpn.
Qed.
Lemma sh_set p pre b : plain b -> set_position (length pre + p) (behind pre b) = (fst (set_position p b), behind pre (snd (set_position p b))) /\ plain (snd (set_position p b)).
Proof.
  intros (F & L). unfold set_position, behind. cbn [data pos]. rewrite app_length.
  destruct (Nat.ltb_spec (length (data b)) p), (Nat.ltb_spec (length pre + length (data b)) (length pre + p)); try lia; cbn [fst snd data pos]; (split; [reflexivity|]); split; cbn [data pos]; auto.
Qed.
Lemma sh_param_step c acc : shifts (param_step c acc).
Proof.
  intros pre b G. unfold param_step. rewrite remaining_behind, sub_behind. destruct (sub_buffer b (remaining b)) as [sb| | |] eqn:E; try (split; [reflexivity|exact G]).
  destruct (sub_plain _ _ sb G E) as (G' & _). destruct (sh_param c pre sb G') as [-> _]. destruct (param_try_from c sb) as [[x|e| |] sb']; cbn [fst snd]; try (split; [reflexivity|exact G]).
  unfold bind, ret. replace (pos (behind pre sb')) with (length pre + pos sb')%nat by reflexivity. destruct (sh_set (pos sb') pre b G) as [-> H]. destruct (set_position (pos sb') b) as [[]]; cbn [fst snd] in *; (split; [reflexivity|exact H]).
Qed.
#[local] Hint Resolve sh_hip sh_types sh_param_step : sh.
Lemma sh_rdata c t : shifts (rdata_from c t).
Proof.
  destruct t; cbn [rdata_from]; unfold pmap; (apply sh_bind; [|intros; apply sh_ret]);
  unfold a_try_from, name_try_from, opaque_try_from, eui48_try_from, eui64_try_from, aaaa_try_from, apl_try_from, caa_try_from, dhcid_try_from, hinfo_try_from,
    ipseckey_try_from, loc_try_from, minfo_try_from, mx_try_from, naptr_try_from, opt_try_from, opt_step, soa_try_from, srv_try_from, sshfp_try_from,
    tlsa_try_from, tkey_try_from, tsig_try_from, txt_try_from, txt_step, uri_try_from, wks_try_from, csync_try_from, svcb_try_from, nsec_try_from, dnskey_try_from,
    ds_try_from, rrsig_try_from; solve [apply sh_hip|sh].
Qed.
Lemma sh_question c : shifts (question_try_from c). Proof. unfold question_try_from. sh. Qed.
Lemma sh_rr c : shifts (rr_try_from c).
Proof. unfold rr_try_from. sh. apply sh_framed, sh_rdata. Qed.
#[local] Hint Resolve sh_header sh_question sh_rr : sh.
Lemma sh_packet c : shifts (packet_try_from_buf c).
Proof. unfold packet_try_from_buf. sh. Qed.
