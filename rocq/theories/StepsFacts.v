(** * Lemmas for C79. *)
From Coq Require Import Lia ZifyNat ZifyN ZifyBool.
From Verif Require Import Base Utf8 Buffer Fqdn Header Types RDataBasic Bitmap Svcb RDataSec RData Packet BaseFacts BufferFacts FqdnLoop NameSpec ParseFacts ObjectSpec Steps.

(** ** The counted parsers do what the parsers do *)
Definition same {A} (t : T A) (p : P A) : Prop := forall b, fst (t b) = p b.
Lemma same_bind {A B} (t : T A) (p : P A) (f : A -> T B) (g : A -> P B) : same t p -> (forall a, same (f a) (g a)) -> same (tbind t f) (bind p g).
Proof.
  intros H K b. unfold tbind, bind. specialize (H b). destruct (t b) as [[r b'] n]. cbn [fst] in H. rewrite <- H. destruct r; try reflexivity.
  specialize (K a b'). destruct (f a b') as [x m]. exact K.
Qed.
Lemma same_ret {A} (a : A) : same (tret a) (ret a). Proof. intros b. reflexivity. Qed.
Lemma same_fail {A} e : same (@tfail A e) (fail e). Proof. intros b. reflexivity. Qed.
Lemma same_lift {A} (r : res A) : same (tlift r) (lift r). Proof. intros b. reflexivity. Qed.
Lemma same_call {A} (p : P A) n : same (tcall p n) p. Proof. intros b. reflexivity. Qed.
Lemma same_fqdn : same extract_fqdn_t extract_fqdn. Proof. intros b. reflexivity. Qed.
Lemma same_rest : same extract_rest_t extract_rest. Proof. intros b. reflexivity. Qed.
Lemma same_while {A} (s : A -> T A) (s' : A -> P A) : (forall a, same (s a) (s' a)) -> forall f a, same (while_remaining_t f s a) (while_remaining f s' a).
Proof.
  intros H. induction f as [|f IH]; intros a b; cbn [while_remaining_t while_remaining]; destruct (remaining b =? 0)%nat; try reflexivity.
  apply same_bind; [apply H|exact IH].
Qed.
Lemma same_loop {A} (s : A -> T A) (s' : A -> P A) a : (forall a, same (s a) (s' a)) -> same (loop_remaining_t s a) (loop_remaining s' a).
Proof. intros H b. apply same_while, H. Qed.
Lemma same_repeat {A} (t : T A) (p : P A) n : same t p -> same (repeat_t n t) (repeatP n p).
Proof. intros H. induction n as [|n IH]; [apply same_ret|]. cbn [repeat_t repeatP]. apply same_bind; [exact H|]. intros a. apply same_bind; [exact IH|]. intros l. apply same_ret. Qed.
Create HintDb same discriminated.
#[local] Hint Resolve same_ret same_fail same_lift same_call same_fqdn same_rest same_loop same_repeat : same.
Ltac same := repeat first [solve [auto with same nocore]|apply same_loop; intros ?|apply same_repeat|apply same_bind; [|intros ?]|
  match goal with |- same (if ?x then _ else _) _ => destruct x end|match goal with |- same (match ?x with _ => _ end) _ => destruct x end].
Lemma same_bytes n : same (extract_bytes_t n) (extract_bytes n). Proof. intros b. reflexivity. Qed.
#[local] Hint Resolve same_bytes : same.
Lemma same_u8 : same extract_u8_t extract_u8. Proof. unfold extract_u8_t, extract_u8. same. Qed.
Lemma same_u16 : same extract_u16_t extract_u16. Proof. unfold extract_u16_t, extract_u16. same. Qed.
Lemma same_u32 : same extract_u32_t extract_u32. Proof. unfold extract_u32_t, extract_u32. same. Qed.
#[local] Hint Resolve same_u8 same_u16 same_u32 : same.
Lemma same_u8_as {A} (f : N -> res A) : same (extract_u8_as_t f) (extract_u8_as f). Proof. unfold extract_u8_as_t, extract_u8_as. same. Qed.
Lemma same_u16_as {A} (f : N -> res A) : same (extract_u16_as_t f) (extract_u16_as f). Proof. unfold extract_u16_as_t, extract_u16_as. same. Qed.
Lemma same_cs : same extract_character_string_t extract_character_string. Proof. unfold extract_character_string_t, extract_character_string. same. Qed.
#[local] Hint Resolve same_u8_as same_u16_as same_cs : same.
Lemma same_string : same extract_string_t extract_string. Proof. unfold extract_string_t, extract_string. same. Qed.
#[local] Hint Resolve same_string : same.
Lemma same_header : same header_try_from_t header_try_from. Proof. unfold header_try_from_t, header_try_from. same. Qed.
Lemma same_hip : same hip_try_from_t hip_try_from.
Proof.
  unfold hip_try_from_t, hip_try_from. same. intros b. destruct (remaining b =? 0)%nat; [reflexivity|]. apply same_bind; [|intros; apply same_ret].
  apply same_loop. intros x. unfold names_step_t, names_step. same.
Qed.
Lemma same_types c : same (types_try_from_t c) (types_try_from c).
Proof. unfold types_try_from_t, types_try_from. same. Qed.
Lemma same_mandatory c f : forall n acc, same (mandatory_loop_t c f n acc) (mandatory_loop c f n acc).
Proof.
  induction f as [|f IH]; intros n acc b; cbn [mandatory_loop_t mandatory_loop]; destruct (n =? 0); try reflexivity.
  apply same_bind; [apply same_u16_as|]. intros k. apply same_bind; [apply same_lift|]. intros l. apply IH.
Qed.
Lemma same_alpn c f : forall n acc, same (alpn_loop_t c f n acc) (alpn_loop c f n acc).
Proof.
  induction f as [|f IH]; intros n acc b; cbn [alpn_loop_t alpn_loop]; destruct (n =? 0); try reflexivity.
  apply same_bind; [apply same_u8|]. intros k. apply same_bind; [apply same_bytes|]. intros l. apply same_bind; [apply same_lift|]. intros ?. apply IH.
Qed.
Lemma same_param c : same (param_try_from_t c) (param_try_from c).
Proof.
  unfold param_try_from_t, param_try_from. same.
  - intros b. apply (same_mandatory c (S (remaining b))).
  - intros b. apply (same_alpn c (S (remaining b))).
Qed.
Lemma same_param_step c acc : same (param_step_t c acc) (param_step c acc).
Proof.
  intros b. unfold param_step_t, param_step. destruct (sub_buffer b (remaining b)) as [sb| | |]; try reflexivity.
  pose proof (same_param c sb) as H. destruct (param_try_from_t c sb) as [[r sb'] n]. cbn [fst] in H. rewrite <- H. destruct r; try reflexivity.
  assert (S : same (tbind (set_position_t (pos sb')) (fun _ => tret (set_insert param_code a acc))) (bind (set_position (pos sb')) (fun _ => ret (set_insert param_code a acc))))
    by (apply same_bind; [apply same_call|intros; apply same_ret]).
  specialize (S b). destruct (tbind _ _ b) as [x m]. exact S.
Qed.
#[local] Hint Resolve same_hip same_types same_param_step : same.
Lemma same_rdata c t : same (rdata_from_t c t) (rdata_from c t).
Proof.
  destruct t; cbn [rdata_from_t rdata_from]; unfold pmap_t, pmap; (apply same_bind; [|intros; apply same_ret]);
  unfold a_try_from_t, a_try_from, name_try_from_t, name_try_from, opaque_try_from_t, opaque_try_from, eui48_try_from_t, eui48_try_from, eui64_try_from_t, eui64_try_from,
    aaaa_try_from_t, aaaa_try_from, apl_try_from_t, apl_try_from, caa_try_from_t, caa_try_from, dhcid_try_from_t, dhcid_try_from, hinfo_try_from_t, hinfo_try_from,
    ipseckey_try_from_t, ipseckey_try_from, loc_try_from_t, loc_try_from, minfo_try_from_t, minfo_try_from, mx_try_from_t, mx_try_from, naptr_try_from_t, naptr_try_from,
    opt_try_from_t, opt_try_from, opt_step_t, opt_step, soa_try_from_t, soa_try_from, srv_try_from_t, srv_try_from, sshfp_try_from_t, sshfp_try_from,
    tlsa_try_from_t, tlsa_try_from, tkey_try_from_t, tkey_try_from, tsig_try_from_t, tsig_try_from, txt_try_from_t, txt_try_from, txt_step_t, txt_step, uri_try_from_t, uri_try_from,
    wks_try_from_t, wks_try_from, csync_try_from_t, csync_try_from, svcb_try_from_t, svcb_try_from, nsec_try_from_t, nsec_try_from, dnskey_try_from_t, dnskey_try_from,
    ds_try_from_t, ds_try_from, rrsig_try_from_t, rrsig_try_from; solve [apply same_hip|same].
Qed.
Lemma same_framed {A} n (t : T A) (p : P A) : same t p -> same (framed_t n t) (framed n p).
Proof.
  intros K b. unfold framed_t, framed. destruct (sub_buffer b n) as [sb| | |]; try reflexivity.
  pose proof (K sb) as H. destruct (t sb) as [[r sb'] m]. cbn [fst] in H. rewrite <- H. destruct r; try reflexivity.
  assert (S : same (tbind (advance_t n) (fun _ => tret a)) (bind (advance n) (fun _ => ret a))) by (apply same_bind; [apply same_call|intros; apply same_ret]).
  specialize (S b). destruct (tbind _ _ b) as [x k]. exact S.
Qed.
Lemma same_question c : same (question_try_from_t c) (question_try_from c). Proof. unfold question_try_from_t, question_try_from. same. Qed.
Lemma same_rr c : same (rr_try_from_t c) (rr_try_from c).
Proof. unfold rr_try_from_t, rr_try_from. same. apply same_framed, same_rdata. Qed.
#[local] Hint Resolve same_header same_question same_rr : same.
Lemma same_packet c : same (packet_try_from_buf_t c) (packet_try_from_buf c).
Proof. unfold packet_try_from_buf_t, packet_try_from_buf. same. Qed.

(** ** The work for a name *)
Lemma steps_go d f org p : byte_list d ->
  match step d org p with
  | Stop r => fqdn_steps d (S f) org p <= 3 /\ 1 <= fqdn_steps d (S f) org p
  | Go push org' p' => fqdn_steps d (S f) org p = (match push with [l] => 1 + N.of_nat (length l) | _ => 3 end) + fqdn_steps d f org' p'
  end.
Proof.
  intros HB. cbn [fqdn_steps]. unfold step. destruct (nth_error d p) as [n|] eqn:E; [|lia].
  destruct (N.land n COMPRESSION_MASK =? COMPRESSION_MASK).
  - unfold peek_bytes; cbn [data pos]. destruct (length d <? p + 2)%nat; [lia|]. cbn zeta. destruct org as [o|]; cbv beta iota.
    + destruct (o <=? _)%nat; [lia|reflexivity].
    + destruct (p + 1 <=? _)%nat; [lia|reflexivity].
  - destruct (length d <? p + N.to_nat n)%nat; [lia|]. destruct (n =? 0); [lia|].
    destruct (Nat.ltb_spec (length d) (p + 1 + N.to_nat n)); [lia|]. rewrite slice_length by lia. rewrite N2Nat.id. reflexivity.
Qed.
(** After the first pointer every turn is at another place. *)
Lemma steps_trace d o : byte_list d -> forall k p, halts d o k p -> forall f, (k < f)%nat ->
  fqdn_steps d f (Some o) p <= 192 * N.of_nat (length (trace d o k p)) + 3.
Proof.
  intros B. induction k as [|k IH]; intros p H [|f] L; try lia; cbn [halts trace] in *; unfold nxt in *;
    pose proof (steps_go d f (Some o) p B) as G; pose proof (step_cases d (Some o) p B) as C; destruct (step d (Some o) p) as [r|push org' p'] eqn:E; try tauto; try lia.
  rewrite (nxt_org _ _ _ _ _ _ E) in G. specialize (IH p' H f). cbn [length]. rewrite G.
  assert (match push with [l] => 1 + N.of_nat (length l) | _ => 3 end <= 192).
  { destruct C as [(l & -> & (n & _ & Ln & _ & ->) & _)|(-> & _)]; [|lia]. unfold slice. rewrite firstn_length. lia. }
  lia.
Qed.
Lemma steps_after d o p acc f : byte_list d -> (length d < f)%nat -> stuck (fst (fqdn_loop d f acc (Some o) p)) = false ->
  fqdn_steps d f (Some o) p <= 192 * N.of_nat (length d) + 3.
Proof.
  intros B L S. destruct f as [|f]; [lia|]. apply halts_loop, halts_bound in S. pose proof (steps_trace d o B _ _ S (Datatypes.S f) L) as H.
  assert (length (trace d o (length d) p) <= length d)%nat; [|lia].
  rewrite <- (seq_length (length d) 0) at 2. apply NoDup_incl_length; [apply trace_nodup, S|apply trace_lt].
Qed.
Lemma loop_end d f : byte_list d -> forall acc p, (length d - p + length d + 1 < f)%nat -> (p <= length d)%nat ->
  match fqdn_loop d f acc None p with
  | (Ok _, q) => (p < q <= length d)%nat /\ fqdn_steps d f None p <= (192 * N.of_nat (length d) + 4) * N.of_nat (q - p)
  | (Diverge, _) => True
  | _ => fqdn_steps d f None p <= 192 * N.of_nat (length d) + 6 + N.of_nat (length d - p)
  end.
Proof.
  intros B. induction f as [|f IH]; intros acc p L P; [lia|]. rewrite loop_step.
  pose proof (steps_go d f None p B) as G. pose proof (step_cases d None p B) as C. destruct (step d None p) as [[r q]|push org' p'] eqn:E.
  - unfold prepend, rmap. cbn [fst snd]. destruct r; cbn [rbind]; try lia. destruct C as (_ & N0 & ->).
    assert (p < length d)%nat by (apply nth_error_Some; congruence). split; [lia|]. replace (p + 1 - p)%nat with 1%nat by lia.
    lia.
  - destruct C as [(l & -> & (n & Np & Ln & Le & El) & -> & ->)|(-> & (a & b & Pa & _ & Pb & _) & -> & Lt)].
    + assert (Len : length l = N.to_nat n) by (subst l; apply slice_length; lia).
      specialize (IH (acc ++ [l]) (p + 1 + length l)%nat ltac:(lia) ltac:(lia)). destruct (fqdn_loop d f _ None _) as [[] q]; try lia.
    + assert (p + 1 < length d)%nat by (apply nth_error_Some; congruence).
      pose proof (steps_after d (p + 1) p' (acc ++ []) f B) as A. pose proof (loop_pos d f) as LP.
      destruct (fqdn_loop d f (acc ++ []) (Some (p + 1)%nat) p') as [r q] eqn:EL. cbn [fst] in A.
      destruct r; try (specialize (A ltac:(lia) eq_refl); lia); try exact I. specialize (A ltac:(lia) eq_refl).
      rewrite loop_acc in EL. destruct (fqdn_loop d f [] (Some (p + 1)%nat) p') as [r' q'] eqn:ES. unfold prepend, rmap in EL. cbn [fst snd] in EL.
      destruct r'; try discriminate. injection EL as _ <-. apply tail_sound in ES; [|exact B]. destruct ES as [_ ->].
      split; [lia|]. replace (p + 1 + 1 - p)%nat with 2%nat by lia. lia.
Qed.

Lemma fqdn_costs d p : byte_list d -> (p <= length d)%nat ->
  match extract_fqdn (mkbuf d p) with
  | (Ok _, b) => data b = d /\ (p < pos b <= length d)%nat /\ fqdn_steps d (fqdn_fuel d) None p <= (192 * N.of_nat (length d) + 4) * N.of_nat (pos b - p)
  | (Diverge, _) => True
  | _ => fqdn_steps d (fqdn_fuel d) None p <= 192 * N.of_nat (length d) + 6 + N.of_nat (length d - p)
  end.
Proof.
  intros B P. unfold extract_fqdn. cbn [data pos]. pose proof (loop_end d (fqdn_fuel d) B [] p) as H. unfold fqdn_fuel in H at 1. specialize (H ltac:(lia) P).
  destruct (fqdn_loop d (fqdn_fuel d) [] None p) as [[] q]; cbn [data pos]; auto.
Qed.

(** ** The work of the parsers: [a] steps, and for each octet taken as many as a name may need and [k] more *)
Section Costs.
  Context (good : bytes -> Prop) (per_octet : N).
  Context (good_firstn : forall n d, good d -> good (firstn n d)) (one_more : 1 <= per_octet).
  Context (name_costs : forall d p, good d -> (p <= length d)%nat ->
    match extract_fqdn (mkbuf d p) with
    | (Ok _, b) => data b = d /\ (p < pos b <= length d)%nat /\ fqdn_steps d (fqdn_fuel d) None p <= per_octet * N.of_nat (pos b - p)
    | (Diverge, _) => True
    | _ => fqdn_steps d (fqdn_fuel d) None p <= per_octet + 2 + N.of_nat (length d - p)
    end).
  Definition costs {A} (m : nat) (a k : N) (t : T A) : Prop := forall d q, good d -> (q <= length d)%nat ->
    let '(r, b, n) := t (mkbuf d q) in
    match r with
    | Ok _ => data b = d /\ (q + m <= pos b <= length d)%nat /\ n <= a + (per_octet + k) * N.of_nat (pos b - q)
    | Diverge => True
    | _ => n <= a + (per_octet + k) * N.of_nat (length d - q) + per_octet + 3
    end.
  Lemma costs_le {A} m a k m' a' k' (t : T A) : costs m a k t -> (m' <= m)%nat -> a <= a' -> k <= k' -> costs m' a' k' t.
  Proof.
    intros H M X K d q B Q. specialize (H d q B Q). destruct (t (mkbuf d q)) as [[[] b] n]; try exact I.
    - destruct H as (E & P & W). split; [exact E|]. split; [lia|]. eapply N.le_trans; [exact W|]. nia.
    - eapply N.le_trans; [exact H|]. nia.
    - eapply N.le_trans; [exact H|]. nia.
  Qed.
  Lemma costs_bind {A B} m a m' a' k (t : T A) (f : A -> T B) : costs m a k t -> (forall x, costs m' a' k (f x)) -> costs (m + m') (a + a') k (tbind t f).
  Proof.
    intros H G d q HB Q. specialize (H d q HB Q). unfold tbind. destruct (t (mkbuf d q)) as [[[x| | |] b] n]; try exact I; try nia.
    destruct H as (E & P & W). destruct b as [d' p']. cbn [data pos] in *. subst d'. specialize (G x d p' HB ltac:(lia)).
    destruct (f x (mkbuf d p')) as [[r b] n']. destruct r; try exact I.
    - destruct G as (E & P' & W'). split; [exact E|]. split; [lia|]. replace (pos b - q)%nat with ((p' - q) + (pos b - p'))%nat by lia.
      rewrite Nat2N.inj_add, N.mul_add_distr_l. lia.
    - replace (length d - q)%nat with ((p' - q) + (length d - p'))%nat by lia. rewrite Nat2N.inj_add, N.mul_add_distr_l. lia.
    - replace (length d - q)%nat with ((p' - q) + (length d - p'))%nat by lia. rewrite Nat2N.inj_add, N.mul_add_distr_l. lia.
  Qed.
  Lemma costs_ret {A} k (x : A) : costs 0 0 k (tret x).
  Proof. intros d q B Q. cbn [tret]. split; [reflexivity|]. cbn [pos]. split; [lia|]. apply N.le_0_l. Qed.
  Lemma costs_fail {A} m k e : costs m 0 k (@tfail A e).
  Proof. intros d q B Q. cbn [tfail]. apply N.le_0_l. Qed.
  Lemma costs_lift {A} k (r : res A) : costs 0 0 k (tlift r).
  Proof. intros d q B Q. cbn [tlift]. destruct r; cbn [data pos]; try apply N.le_0_l; [split; [reflexivity|split; [lia|apply N.le_0_l]]|exact I]. Qed.
  Lemma costs_bytes k n : costs n 1 k (extract_bytes_t n).
  Proof.
    intros d q B Q. unfold extract_bytes_t, tcall, extract_bytes. cbn [data pos]. destruct (Nat.ltb_spec (length d) (q + n)); cbn [fst data pos]; [nia|].
    split; [reflexivity|]. split; [lia|]. replace (q + n - q)%nat with n by lia. nia.
  Qed.
  Lemma costs_rest k : costs 0 1 k extract_rest_t.
  Proof. intros d q B Q. unfold extract_rest_t. pose proof (costs_bytes k (remaining (mkbuf d q)) d q B Q) as H. destruct (extract_bytes_t _ _) as [[[] b] n]; auto. split; [apply H|]. split; [|apply H]. destruct H as (_ & H & _). lia. Qed.
  Lemma costs_fqdn k : costs 1 0 k extract_fqdn_t.
  Proof.
    intros d q B Q. unfold extract_fqdn_t. cbn [data pos]. pose proof (name_costs d q B Q) as H. destruct (extract_fqdn (mkbuf d q)) as [[] b]; try exact I.
    - destruct H as (E & P & W). split; [exact E|]. split; [lia|]. eapply N.le_trans; [exact W|]. nia.
    - nia.
    - nia.
  Qed.
  (** One turn of a loop. *)
  Lemma costs_turn {A B} m a a1 a2 k (t : T A) (f : A -> T B) : costs (S m) a1 k t -> (forall x, costs 0 (a2 + a) (k + a) (f x)) -> a1 + a2 <= a -> costs 0 a (k + a) (tbind t f).
  Proof.
    intros H G LA d q HB Q. specialize (H d q HB Q). unfold tbind. destruct (t (mkbuf d q)) as [[[x| | |] b] n]; try exact I; try nia.
    destruct H as (E & P & W). destruct b as [d' p']. cbn [data pos] in *. subst d'. specialize (G x d p' HB ltac:(lia)).
    assert (X : n + a2 <= (per_octet + (k + a)) * N.of_nat (p' - q)).
    { replace (per_octet + (k + a)) with ((per_octet + k) + a) by lia. rewrite N.mul_add_distr_r. assert (a * 1 <= a * N.of_nat (p' - q)) by (apply N.mul_le_mono_l; lia). lia. }
    destruct (f x (mkbuf d p')) as [[r b] n']. destruct r; try exact I.
    - destruct G as (E & P' & W'). split; [exact E|]. split; [lia|]. replace (pos b - q)%nat with ((p' - q) + (pos b - p'))%nat by lia.
      rewrite Nat2N.inj_add, N.mul_add_distr_l. lia.
    - replace (length d - q)%nat with ((p' - q) + (length d - p'))%nat by lia. rewrite Nat2N.inj_add, N.mul_add_distr_l. lia.
    - replace (length d - q)%nat with ((p' - q) + (length d - p'))%nat by lia. rewrite Nat2N.inj_add, N.mul_add_distr_l. lia.
  Qed.
  Lemma costs_loop {A} m a k (s : A -> T A) x : (forall y, costs (S m) a k (s y)) -> costs 0 a (k + a) (loop_remaining_t s x).
  Proof.
    intros H d q B Q. unfold loop_remaining_t. generalize (remaining (mkbuf d q)). intros f. revert d q B Q. fold (costs 0 a (k + a) (while_remaining_t f s x)).
    revert x. induction f as [|f IH]; intros x d q B Q; cbn [while_remaining_t]; (destruct (remaining (mkbuf d q) =? 0)%nat; [cbn [data pos]; split; [reflexivity|split; [lia|apply N.le_0_l]]|]).
    - exact I.
    - refine (costs_turn m a a 0 k (s x) (while_remaining_t f s) (H x) _ _ d q B Q); [|lia]. intros y. apply (costs_le 0 a (k + a)); [apply IH|lia..].
  Qed.
  Lemma costs_repeat {A} m a k n (t : T A) : costs (S m) a k t -> costs 0 a (k + a) (repeat_t n t).
  Proof.
    intros H. induction n as [|n IH]; [apply (costs_le 0 0 (k + a)); [apply costs_ret|lia|lia|lia]|]. cbn [repeat_t].
    apply costs_turn with m a 0; [exact H| |lia]. intros x. apply (costs_le (0 + 0) (a + 0) (k + a)); [|lia|lia|lia]. apply costs_bind; [exact IH|]. intros l. apply costs_ret.
  Qed.
  Lemma costs_u8 k : costs 1 1 k extract_u8_t.
  Proof. apply (costs_le (1 + 0) (1 + 0) k); [|lia..]. apply costs_bind; [apply costs_bytes|intros x; apply costs_ret]. Qed.
  Lemma costs_u16 k : costs 2 1 k extract_u16_t.
  Proof. apply (costs_le (2 + 0) (1 + 0) k); [|lia..]. apply costs_bind; [apply costs_bytes|intros x; apply costs_ret]. Qed.
  Lemma costs_u32 k : costs 4 1 k extract_u32_t.
  Proof. apply (costs_le (4 + 0) (1 + 0) k); [|lia..]. apply costs_bind; [apply costs_bytes|intros x; apply costs_ret]. Qed.
  Lemma costs_u8_as {A} k (f : N -> res A) : costs 1 1 k (extract_u8_as_t f).
  Proof. apply (costs_le (1 + 0) (1 + 0) k); [|lia..]. apply costs_bind; [apply costs_u8|intros x; apply costs_lift]. Qed.
  Lemma costs_u16_as {A} k (f : N -> res A) : costs 2 1 k (extract_u16_as_t f).
  Proof. apply (costs_le (2 + 0) (1 + 0) k); [|lia..]. apply costs_bind; [apply costs_u16|intros x; apply costs_lift]. Qed.
  Lemma costs_bytes0 k n : costs 0 1 k (extract_bytes_t n).
  Proof. apply (costs_le n 1 k); [apply costs_bytes|lia..]. Qed.
  Lemma costs_cs k : costs 1 2 k extract_character_string_t.
  Proof. apply (costs_le (1 + 0) (1 + 1) k); [|lia..]. apply costs_bind; [apply costs_u8|intros x; apply costs_bytes0]. Qed.
  Lemma costs_fail0 {A} k e : costs 0 0 k (@tfail A e).
  Proof. apply costs_fail. Qed.
  Lemma costs_string k : costs 1 2 k extract_string_t.
  Proof. apply (costs_le (1 + 0) (2 + 0) k); [|lia..]. apply costs_bind; [apply costs_cs|]. intros x. destruct (utf8_valid x); [apply costs_ret|apply costs_fail0]. Qed.
  Lemma costs_mandatory c f : forall n acc, costs 0 1 1 (mandatory_loop_t c f n acc).
  Proof.
    induction f as [|f IH]; intros n acc d q B Q; cbn [mandatory_loop_t]; (destruct (n =? 0); [cbn [data pos]; split; [reflexivity|split; [lia|apply N.le_0_l]]|]); [exact I|].
    eapply (costs_turn 1 1 1 0 0); [apply costs_u16_as| |lia|exact B|exact Q]. intros x. apply (costs_le (0 + 0) (0 + 1) 1); [|lia..].
    apply costs_bind; [apply costs_lift|]. intros l. apply IH.
  Qed.
  Lemma costs_alpn c f : forall n acc, costs 0 2 2 (alpn_loop_t c f n acc).
  Proof.
    induction f as [|f IH]; intros n acc.
    { intros d q B Q. cbn [alpn_loop_t]. destruct (n =? 0); [cbn [data pos]; split; [reflexivity|split; [lia|apply N.le_0_l]]|exact I]. }
    intros d q B Q. cbn [alpn_loop_t]. destruct (n =? 0); [cbn [data pos]; split; [reflexivity|split; [lia|apply N.le_0_l]]|].
    eapply (costs_turn 0 2 1 1 0); [apply costs_u8| |lia|exact B|exact Q]. intros x. apply (costs_le (0 + (0 + 0)) (1 + (0 + 2)) 2); [|lia..].
    apply costs_bind; [apply costs_bytes0|]. intros s. apply costs_bind; [apply costs_lift|]. intros l. apply IH.
  Qed.
  Lemma costs_here {A} m a k (t : buf -> T A) : (forall b, costs m a k (t b)) -> costs m a k (fun b => t b b).
  Proof. intros H d q. exact (H (mkbuf d q) d q). Qed.
  Lemma costs_if {A} m a k (x : bool) (t u : T A) : costs m a k t -> costs m a k u -> costs m a k (if x then t else u).
  Proof. intros H K. destruct x; assumption. Qed.
  Ltac cost := repeat first [apply costs_ret|apply costs_fail0|apply costs_lift|apply costs_fqdn|apply costs_u8|apply costs_u16|apply costs_u32|apply costs_u8_as|apply costs_u16_as|
    apply costs_cs|apply costs_string|apply costs_rest|apply costs_bytes|apply costs_bytes0|apply costs_bind; [|intros ?]].
  Lemma costs_fit {A} m a k m' a' (t : T A) : costs m a k t -> (m' <= m)%nat -> a <= a' -> costs m' a' k t.
  Proof. intros H M X. apply (costs_le m a k); [exact H|exact M|exact X|lia]. Qed.
  Ltac costly := eapply costs_fit; [cost|cbn; lia|cbn; lia].
  Lemma costs_param c : costs 4 4 2 (param_try_from_t c).
  Proof.
    unfold param_try_from_t. apply (costs_le (2 + (2 + 0)) (1 + (1 + 2)) 2); [|lia..]. apply costs_bind; [apply costs_u16_as|]. intros key. apply costs_bind; [apply costs_u16|]. intros len.
    destruct key; try solve [costly].
    - apply (costs_here 0 2 2 (fun b => tbind (mandatory_loop_t c (S (remaining b)) len []) (fun ks => tret (PMandatory ks)))). intros b.
      apply (costs_le (0 + 0) (1 + 0) 2); [|lia..]. apply costs_bind; [apply (costs_le 0 1 1); [apply costs_mandatory|lia..]|]. intros x. apply costs_ret.
    - apply (costs_here 0 2 2 (fun b => tbind (alpn_loop_t c (S (remaining b)) len []) (fun ks => tret (PAlpn ks)))). intros b.
      apply (costs_le (0 + 0) (2 + 0) 2); [|lia..]. apply costs_bind; [apply costs_alpn|]. intros x. apply costs_ret.
  Qed.
  Lemma costs_param_step c acc : costs 4 6 2 (param_step_t c acc).
  Proof.
    intros d q B Q. unfold param_step_t, sub_buffer, remaining. cbn [data pos]. replace (q + (length d - q))%nat with (length d) by lia. rewrite Nat.ltb_irrefl, firstn_all.
    pose proof (costs_param c d q B Q) as H. destruct (param_try_from_t c (mkbuf d q)) as [[r b] n]. destruct r; try exact I; try lia.
    destruct H as (E & P & W). unfold tbind, set_position_t, tcall, set_position. cbn [data pos].
    destruct (Nat.ltb_spec (length d) (pos b)); [lia|]. cbn [fst data pos tret]. split; [reflexivity|]. split; [lia|]. change (N.of_nat 0) with 0. lia.
  Qed.
  Lemma costs_types c : costs 0 3 3 (types_try_from_t c).
  Proof. apply (costs_loop 1 3 0). intros y. unfold window_step_t. costly. Qed.
  Lemma costs_hip : costs 4 7 2 hip_try_from_t.
  Proof.
    unfold hip_try_from_t. apply (costs_le (1 + (1 + (2 + (0 + (0 + 0))))) (1 + (1 + (1 + (1 + (1 + 2))))) 2); [|lia..].
    do 5 (apply costs_bind; [cost|intros ?]). intros d q B Q. destruct (remaining (mkbuf d q) =? 0)%nat; [cbn [data pos]; split; [reflexivity|split; [lia|apply N.le_0_l]]|].
    eapply (costs_fit (0 + 0) (1 + 0) 2 0 2); [|lia|lia|exact B|exact Q]. apply costs_bind; [|intros ?; apply costs_ret].
    apply (costs_le 0 1 1); [|lia..]. apply (costs_loop 0 1 0). intros y. unfold names_step_t. costly.
  Qed.
  Lemma costs_txt : costs 0 2 2 txt_try_from_t.
  Proof. apply (costs_loop 0 2 0). intros y. unfold txt_step_t. costly. Qed.
  Lemma costs_opt : costs 0 3 3 opt_try_from_t.
  Proof. apply (costs_loop 1 3 0). intros y. unfold opt_step_t. costly. Qed.
  Lemma costs_params c : costs 0 6 8 (loop_remaining_t (param_step_t c) []).
  Proof. apply (costs_loop 3 6 2). intros y. apply costs_param_step. Qed.
  Ltac numbers := repeat match goal with |- costs _ _ _ (match ?n with N0 => _ | Npos _ => _ end) => destruct n end;
    repeat match goal with |- costs _ _ _ (match ?n with xI _ => _ | xO _ => _ | xH => _ end) => destruct n end; costly.
  Lemma costs_rdata c ty : costs 0 11 8 (rdata_from_t c ty).
  Proof.
    destruct ty; cbn [rdata_from_t]; unfold pmap_t; (apply (costs_fit (0 + 0) (11 + 0) 8); [|lia..]); (apply costs_bind; [|intros x; apply costs_ret]);
    unfold a_try_from_t, name_try_from_t, opaque_try_from_t, eui48_try_from_t, eui64_try_from_t, aaaa_try_from_t, apl_try_from_t, caa_try_from_t, dhcid_try_from_t, hinfo_try_from_t,
      ipseckey_try_from_t, loc_try_from_t, minfo_try_from_t, mx_try_from_t, naptr_try_from_t, soa_try_from_t, srv_try_from_t, sshfp_try_from_t,
      tlsa_try_from_t, tkey_try_from_t, tsig_try_from_t, uri_try_from_t, wks_try_from_t, csync_try_from_t, svcb_try_from_t, nsec_try_from_t, dnskey_try_from_t, ds_try_from_t, rrsig_try_from_t.
    all: try solve [costly].
    - apply (costs_le 0 2 2); [apply costs_txt|lia..].
    - apply (costs_le 0 3 3); [apply costs_opt|lia..].
    - apply (costs_fit (2 + (1 + (1 + (0 + 0)))) (1 + (1 + (1 + (1 + 0)))) 8); [|lia..]. do 4 (apply costs_bind; [cost|intros ?]). numbers.
    - apply (costs_fit (1 + (1 + (1 + (0 + (0 + 0))))) (1 + (1 + (1 + (1 + (1 + 0))))) 8); [|lia..]. do 3 (apply costs_bind; [cost|intros ?]). apply costs_bind; [numbers|]. intros ?. cost.
    - apply (costs_fit (1 + (0 + 0)) (0 + (3 + 0)) 8); [|lia..]. apply costs_bind; [cost|intros ?]. apply costs_bind; [apply (costs_le 0 3 3); [apply costs_types|lia..]|intros ?; cost].
    - apply (costs_fit (2 + (1 + 0)) (1 + (1 + 1)) 8); [|lia..]. do 2 (apply costs_bind; [cost|intros ?]). apply costs_if; costly.
    - apply (costs_le 4 7 2); [apply costs_hip|lia..].
    - apply (costs_fit (4 + (2 + (0 + 0))) (1 + (1 + (3 + 0))) 8); [|lia..]. do 2 (apply costs_bind; [cost|intros ?]). apply costs_bind; [apply (costs_le 0 3 3); [apply costs_types|lia..]|intros ?; cost].
    - apply (costs_fit (2 + (1 + (0 + 0))) (1 + (0 + (6 + 0))) 8); [|lia..]. do 2 (apply costs_bind; [cost|intros ?]). apply costs_bind; [apply costs_params|intros ?; cost].
    - apply (costs_fit (1 + (1 + 0)) (1 + (1 + 2)) 8); [|lia..]. do 2 (apply costs_bind; [cost|intros ?]). apply costs_if; costly.
  Qed.
  Lemma costs_framed {A} m a k n (t : T A) : costs m a k t -> costs 0 (a + 2) k (framed_t n t).
  Proof.
    intros H d q B Q. unfold framed_t, sub_buffer. cbn [data pos]. destruct (Nat.ltb_spec (length d) (q + n)); [nia|].
    assert (Lf : length (firstn (q + n) d) = (q + n)%nat) by (rewrite firstn_length; lia).
    specialize (H (firstn (q + n) d) q ltac:(apply good_firstn, B) ltac:(lia)). destruct (t (mkbuf (firstn (q + n) d) q)) as [[r b] w]. rewrite Lf in H.
    destruct r; try exact I; [|assert (X : (per_octet + k) * N.of_nat (q + n - q) <= (per_octet + k) * N.of_nat (length d - q)) by (apply N.mul_le_mono_l; lia); lia..].
    destruct H as (_ & P & W). unfold tbind, advance_t, tcall, advance. cbn [data pos]. destruct (Nat.ltb_spec (length d) (q + n)); [lia|].
    cbn [fst data pos tret]. split; [reflexivity|]. split; [lia|]. change (N.of_nat 0) with 0.
    assert (X : (per_octet + k) * N.of_nat (pos b - q) <= (per_octet + k) * N.of_nat (q + n - q)) by (apply N.mul_le_mono_l; lia). lia.
  Qed.
  Lemma costs_rr c : costs 11 17 8 (rr_try_from_t c).
  Proof.
    unfold rr_try_from_t. apply (costs_fit (1 + (2 + (2 + (4 + (2 + (0 + 0)))))) (0 + (1 + (1 + (1 + (1 + (13 + 0)))))) 8); [|lia..].
    do 5 (apply costs_bind; [cost|intros ?]). apply costs_bind; [|intros ?; cost]. apply (costs_framed 0 11 8), costs_rdata.
  Qed.
  Lemma costs_question c : costs 5 2 8 (question_try_from_t c).
  Proof.
    unfold question_try_from_t. apply (costs_fit (1 + (2 + 2)) (0 + (1 + 1)) 8); [|lia..]. do 2 (apply costs_bind; [cost|intros ?]). apply costs_if; [|costly].
    apply (costs_fit (2 + 0) (1 + 0) 8); [|lia..]. apply costs_bind; [cost|intros ?]. apply costs_if; costly.
  Qed.
  Lemma costs_header : costs 12 6 25 header_try_from_t.
  Proof. unfold header_try_from_t. costly. Qed.
  Lemma costs_packet c : costs 12 59 25 (packet_try_from_buf_t c).
  Proof.
    unfold packet_try_from_buf_t. apply (costs_fit (12 + (0 + (0 + (0 + (0 + 0))))) (6 + (2 + (17 + (17 + (17 + 0))))) 25); [|lia..].
    apply costs_bind; [apply costs_header|intros h]. apply costs_bind; [apply (costs_le 0 2 (8 + 2)); [apply (costs_repeat 4), costs_question|lia..]|intros ?].
    do 3 (apply costs_bind; [apply (costs_repeat 10 17 8), costs_rr|intros ?]). cost.
  Qed.
End Costs.
Lemma packet_all (good : bytes -> Prop) W c d : good d -> (forall n d, good d -> good (firstn n d)) -> 1 <= W ->
  (forall d p, good d -> (p <= length d)%nat ->
    match extract_fqdn (mkbuf d p) with
    | (Ok _, b) => data b = d /\ (p < pos b <= length d)%nat /\ fqdn_steps d (fqdn_fuel d) None p <= W * N.of_nat (pos b - p)
    | (Diverge, _) => True
    | _ => fqdn_steps d (fqdn_fuel d) None p <= W + 2 + N.of_nat (length d - p)
    end) ->
  packet_try_from c d <> Diverge -> packet_steps c d <= (W + 25) * N.of_nat (length d) + W + 62.
Proof.
  intros B F O G D. pose proof (costs_packet good W F O G c d 0%nat B ltac:(lia)) as H. pose proof (same_packet c (buf_from d)) as S.
  unfold packet_steps, packet_try_from in *. change (mkbuf d 0) with (buf_from d) in H. destruct (packet_try_from_buf_t c (buf_from d)) as [[r b] n]. cbn [fst snd] in *.
  rewrite <- S in D. cbn [fst] in D. destruct r; try congruence; rewrite ?Nat.sub_0_r in H; [destruct H as (_ & P & W')|..]; nia.
Qed.
Lemma packet_costs c d : byte_list d -> packet_try_from c d <> Diverge ->
  packet_steps c d <= 192 * N.of_nat (length d) * N.of_nat (length d) + 221 * N.of_nat (length d) + 66.
Proof.
  intros B D. set (good := fun x : bytes => byte_list x /\ (length x <= length d)%nat).
  pose proof (packet_all good (192 * N.of_nat (length d) + 4) c d (conj B (le_n _))) as H.
  assert (packet_steps c d <= (192 * N.of_nat (length d) + 4 + 25) * N.of_nat (length d) + (192 * N.of_nat (length d) + 4) + 62).
  { apply H; [|lia| |exact D].
    - intros n x [X Y]. split; [apply firstn_byte_list, X|]. rewrite firstn_length. lia.
    - intros x p [X Y] P. pose proof (fqdn_costs x p X P) as F. destruct (extract_fqdn (mkbuf x p)) as [[] b]; try exact I; [|lia..]. destruct F as (E & Q & W).
      split; [exact E|]. split; [lia|]. eapply N.le_trans; [exact W|]. apply N.mul_le_mono_r. lia. }
  nia.
Qed.
(** Without octets that could begin a pointer a name costs as much as it is long. *)
Definition no_pointer (d : bytes) : Prop := Forall (fun x => x < 192) d.
Lemma no_pointer_bytes d : no_pointer d -> byte_list d.
Proof. intros H. eapply Forall_impl; [|exact H]. cbv beta. intros; lia. Qed.
Lemma plain_loop d f : no_pointer d -> forall acc p, (length d - p < f)%nat -> (p <= length d)%nat ->
  match fqdn_loop d f acc None p with
  | (Ok _, q) => (p < q <= length d)%nat /\ fqdn_steps d f None p = N.of_nat (q - p)
  | (Diverge, _) => False
  | _ => fqdn_steps d f None p <= 1 + N.of_nat (length d - p)
  end.
Proof.
  intros HN. pose proof (no_pointer_bytes d HN) as B. induction f as [|f IH]; intros acc p L P; [lia|]. cbn [fqdn_loop fqdn_steps].
  destruct (nth_error d p) as [n|] eqn:E; [|lia]. assert (Pl : (p < length d)%nat) by (apply nth_error_Some; congruence).
  assert (Ln : n < 192) by (apply (proj1 (Forall_forall _ _) HN n), (nth_error_In _ _ E)).
  rewrite mask_byte by lia. destruct (N.leb_spec 192 n); [lia|]. destruct (Nat.ltb_spec (length d) (p + N.to_nat n)); [lia|].
  destruct (N.eqb_spec n 0); [lia|]. destruct (Nat.ltb_spec (length d) (p + 1 + N.to_nat n)); [lia|].
  specialize (IH (acc ++ [slice d (p + 1) (N.to_nat n)]) (p + 1 + N.to_nat n)%nat ltac:(lia) ltac:(lia)). destruct (fqdn_loop d f _ None _) as [[] q]; try exact IH; lia.
Qed.
Lemma packet_plain_costs c d : no_pointer d -> packet_try_from c d <> Diverge -> packet_steps c d <= 26 * N.of_nat (length d) + 63.
Proof.
  intros HN D. pose proof (packet_all no_pointer 1 c d HN) as H. replace (26 * N.of_nat (length d) + 63) with ((1 + 25) * N.of_nat (length d) + 1 + 62) by lia. apply H; [|lia| |exact D].
  - intros n x X. unfold no_pointer in *. rewrite <- (firstn_skipn n x) in X. apply Forall_app in X. apply X.
  - intros x p X P. unfold extract_fqdn. cbn [data pos]. pose proof (plain_loop x (fqdn_fuel x) X [] p) as F. unfold fqdn_fuel in F at 1. specialize (F ltac:(lia) P).
    destruct (fqdn_loop x (fqdn_fuel x) [] None p) as [[] q]; cbn [data pos]; try tauto; try lia. destruct F as [F1 F2]. split; [reflexivity|]. split; [lia|]. lia.
Qed.

(** ** Reading a name is at least as much work as the name is long *)
Lemma steps_least d f : byte_list d -> forall org p ls q, fqdn_loop d f [] org p = (Ok ls, q) -> N.of_nat (octets_in_name ls) <= fqdn_steps d f org p.
Proof.
  intros B. induction f as [|f IH]; intros org p ls q E; [discriminate|]. rewrite loop_step in E.
  pose proof (steps_go d f org p B) as G. pose proof (step_cases d org p B) as C. destruct (step d org p) as [[r q']|push org' p'].
  - rewrite prepend_nil in E. injection E as -> ->. destruct C as (-> & _). cbn [octets_in_name fold_right]. lia.
  - rewrite loop_acc in E. destruct (fqdn_loop d f [] org' p') as [r q'] eqn:EL. unfold prepend, rmap in E. cbn [fst snd] in E. destruct r as [l| | |]; try discriminate.
    cbn [rbind] in E. injection E as <- <-. specialize (IH _ _ _ _ EL). rewrite G.
    destruct C as [(x & -> & _)|(-> & _)]; cbn [app]; unfold octets_in_name in *; cbn [fold_right]; lia.
Qed.
Lemma fqdn_least d p ls b : byte_list d -> extract_fqdn (mkbuf d p) = (Ok ls, b) -> N.of_nat (octets_in_name ls) <= snd (extract_fqdn_t (mkbuf d p)).
Proof.
  intros B E. unfold extract_fqdn_t. cbn [snd data pos]. unfold extract_fqdn in E. cbn [data pos] in E.
  destruct (fqdn_loop d (fqdn_fuel d) [] None p) as [r q] eqn:EL. injection E as -> _. exact (steps_least d _ B _ _ _ _ EL).
Qed.
Lemma tbind_ok {A B} (t : T A) (f : A -> T B) b y b' : fst (tbind t f b) = (Ok y, b') ->
  exists x b1, fst (t b) = (Ok x, b1) /\ fst (f x b1) = (Ok y, b') /\ snd (tbind t f b) = snd (t b) + snd (f x b1).
Proof.
  unfold tbind. destruct (t b) as [[[x| | |] b1] n]; intros E; try discriminate. exists x, b1. split; [reflexivity|]. destruct (f x b1) as [z m]. split; [exact E|reflexivity].
Qed.
Definition questions_octets (qs : list question) : nat := fold_right (fun q n => octets_in_name (q_name q) + n)%nat 0%nat qs.
Lemma question_least c d p q b : byte_list d -> fst (question_try_from_t c (mkbuf d p)) = (Ok q, b) -> N.of_nat (octets_in_name (q_name q)) <= snd (question_try_from_t c (mkbuf d p)).
Proof.
  intros B E. unfold question_try_from_t in *. apply tbind_ok in E. destruct E as (f & b1 & E1 & E2 & ->). apply (fqdn_least d p f b1 B) in E1.
  assert (F : q_name q = f).
  { clear - E2. apply tbind_ok in E2. destruct E2 as (? & ? & _ & E2 & _). destruct (mdns c).
    - apply tbind_ok in E2. destruct E2 as (v & b2 & _ & E2 & _). destruct (negb _); apply tbind_ok in E2; destruct E2 as (? & ? & _ & E2 & _); injection E2 as <- _; reflexivity.
    - apply tbind_ok in E2. destruct E2 as (? & ? & _ & E2 & _). injection E2 as <- _. reflexivity. }
  rewrite F. lia.
Qed.
Lemma questions_least c d : byte_list d -> forall n p qs b, (p <= length d)%nat -> fst (repeat_t n (question_try_from_t c) (mkbuf d p)) = (Ok qs, b) ->
  N.of_nat (questions_octets qs) <= snd (repeat_t n (question_try_from_t c) (mkbuf d p)).
Proof.
  intros B. induction n as [|n IH]; intros p qs b L E; cbn [repeat_t] in *.
  - injection E as <- _. cbn. lia.
  - apply tbind_ok in E. destruct E as (q & b1 & E1 & E2 & ->). pose proof (question_least c d p q b1 B E1) as Q.
    pose proof (ok_question c _ _ B L) as K. rewrite same_question in E1. rewrite E1 in K. destruct K as (K1 & K2 & _). destruct b1 as [d' p']. cbn [data pos] in *. subst d'.
    apply tbind_ok in E2. destruct E2 as (xs & b2 & E3 & E4 & ->). injection E4 as <- _. specialize (IH p' xs b2 ltac:(lia) E3).
    cbn [questions_octets fold_right]. fold (questions_octets xs). cbn [tret snd]. lia.
Qed.
Lemma packet_least c d p : byte_list d -> packet_try_from c d = Ok p -> N.of_nat (questions_octets (p_questions p)) <= packet_steps c d.
Proof.
  intros B E. unfold packet_try_from in E. rewrite <- same_packet in E. destruct (fst (packet_try_from_buf_t c (buf_from d))) as [r b] eqn:EB. cbn [fst] in E. subst r.
  unfold packet_steps, packet_try_from_buf_t in *. apply tbind_ok in EB. destruct EB as (h & b1 & E1 & E2 & ->).
  pose proof (ok_header c d 0%nat B (Nat.le_0_l _)) as K. change (mkbuf d 0) with (buf_from d) in K. rewrite same_header in E1. rewrite E1 in K. destruct K as (K1 & K2 & _).
  destruct b1 as [d' p']. cbn [data pos] in *. subst d'. apply tbind_ok in E2. destruct E2 as (qs & b2 & E2 & E3 & ->). apply questions_least in E2; [|exact B|lia].
  apply tbind_ok in E3. destruct E3 as (an & b3 & _ & E3 & ->). apply tbind_ok in E3. destruct E3 as (au & b4 & _ & E3 & ->). apply tbind_ok in E3. destruct E3 as (ad & b5 & _ & E3 & ->).
  injection E3 as <- _. cbn [p_questions]. lia.
Qed.
