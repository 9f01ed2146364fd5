(** * C75: how much an accepted message makes the parser hold. *)
From Coq Require Import Lia ZifyNat ZifyN.
From Verif Require Import Base Buffer Fqdn Header Types RDataBasic Bitmap Svcb RDataSec RData Packet BaseFacts NameSpec CodeSpec HeaderSpec HeaderFacts WireSpec FieldSpec ReadSpec SvcbParse WireFacts ReadFacts
  ObjectSpec ObjectFacts FqdnFacts HeldSpec HeldFacts PropName PropRecord PropPacket PropWire.
Local Open Scope nat_scope.

(** ** A family of messages: one name of [k] labels and [m] questions that point to it. *)
Definition growing (k m : nat) : bytes :=
  let n := N.of_nat (S m) in
  [0; 0; 0; 0; n / 256; n mod 256; 0; 0; 0; 0; 0; 0]%N ++ concat (repeat [1; 97]%N k) ++ [0; 0; 1; 0; 1]%N ++ concat (repeat [192; 12; 0; 1; 0; 1]%N m).
Definition growing_question (k : nat) : question := question_new (repeat [97]%N k) (QT A) QIN.

Lemma nth_here (pre : bytes) x suf n : n = length pre -> nth_error (pre ++ x :: suf) n = Some x.
Proof. intros ->. rewrite nth_error_app2 by lia. rewrite Nat.sub_diag. reflexivity. Qed.
Lemma concat_length {X} (x : list X) n : length (concat (repeat x n)) = n * length x.
Proof. induction n as [|n IH]; [reflexivity|]. cbn [repeat concat]. rewrite app_length, IH. lia. Qed.
Lemma growing_length k m : length (growing k m) = 17 + 2 * k + 6 * m.
Proof. unfold growing. rewrite !app_length, !concat_length. cbn [length]. lia. Qed.
Lemma label_a pre suf : label_at (pre ++ 1%N :: 97%N :: suf) 191 (length pre) [97%N].
Proof.
  exists 1%N. split; [apply nth_here; reflexivity|]. split; [lia|]. change (N.to_nat 1) with 1. rewrite app_length. cbn [length]. split; [lia|].
  unfold slice. rewrite skipn_app, skipn_all2 by lia. replace (length pre + 1 - length pre) with 1 by lia. reflexivity.
Qed.
Lemma name_a k : forall pre suf, name_at (pre ++ concat (repeat [1; 97]%N k) ++ 0%N :: suf) 191 (length pre) (repeat [97]%N k) (length pre + 2 * k + 1).
Proof.
  induction k as [|k IH]; intros pre suf; cbn [repeat concat app].
  - replace (length pre + 2 * 0 + 1) with (length pre + 1) by lia. apply name_root, nth_here. reflexivity.
  - eapply name_label; [apply label_a|]. specialize (IH (pre ++ [1; 97]%N) suf). rewrite app_length, <- app_assoc in IH. cbn [length app] in *.
    replace (length pre + 2 * S k + 1) with (length pre + 2 + 2 * k + 1) by lia. replace (length pre + 1 + 1) with (length pre + 2) by lia. exact IH.
Qed.
Lemma tail_a k : forall pre suf lim, tail_at (pre ++ concat (repeat [1; 97]%N k) ++ 0%N :: suf) 191 lim (length pre) (repeat [97]%N k).
Proof.
  induction k as [|k IH]; intros pre suf lim; cbn [repeat concat app].
  - apply tail_root, nth_here. reflexivity.
  - eapply tail_label; [apply label_a|]. specialize (IH (pre ++ [1; 97]%N) suf lim). rewrite app_length, <- app_assoc in IH. cbn [length app] in *.
    replace (length pre + 1 + 1) with (length pre + 2) by lia. exact IH.
Qed.
Lemma u16_here (pre : bytes) (a b : N) suf n : (a < 256)%N -> (b < 256)%N -> n = length pre -> u16_at (pre ++ a :: b :: suf) n (a * 256 + b).
Proof.
  intros A B ->. exists a, b. split; [apply nth_here; reflexivity|]. split; [exact A|]. split; [|auto].
  rewrite nth_error_app2 by lia. replace (length pre + 1 - length pre) with 1 by lia. reflexivity.
Qed.
Lemma rest_of_question c d pre suf p k : d = pre ++ [0; 1; 0; 1]%N ++ suf -> name_at d 191 p (repeat [97]%N k) (length pre) ->
  question_at c d p (growing_question k) (length pre + 4).
Proof.
  intros -> N. exists (length pre), 1%N. split; [exact N|]. split; [apply (u16_here pre 0 1 ([0; 1]%N ++ suf)); (lia || reflexivity)|].
  split; [split; [destruct c as [[] [] []]; reflexivity|split; discriminate]|]. split.
  { replace (pre ++ [0; 1; 0; 1]%N ++ suf) with ((pre ++ [0; 1]%N) ++ 0%N :: 1%N :: suf) by (rewrite <- app_assoc; reflexivity).
    apply (u16_here (pre ++ [0; 1]%N) 0 1 suf); [lia|lia|]. rewrite app_length. reflexivity. }
  split; [reflexivity|]. split; [destruct c as [[] [] []]; reflexivity|reflexivity].
Qed.
Lemma pointing c k d : (forall lim, tail_at d 191 lim 12 (repeat [97]%N k)) ->
  forall m pre, 12 <= length pre -> d = pre ++ concat (repeat [192; 12; 0; 1; 0; 1]%N m) ->
  consecutive (question_at c d) (length pre) (repeat (growing_question k) m) (length d).
Proof.
  intros T. induction m as [|m IH]; intros pre L E; cbn [repeat concat] in *.
  - rewrite app_nil_r in E. subst. constructor.
  - assert (X : length pre + 6 = length (pre ++ [192; 12; 0; 1; 0; 1]%N)) by (rewrite app_length; reflexivity).
    apply one_more with (length pre + 6); [|lia|].
    + replace (length pre + 6) with (length (pre ++ [192; 12]%N) + 4) by (rewrite app_length; cbn [length]; lia).
      apply rest_of_question with (concat (repeat [192; 12; 0; 1; 0; 1]%N m)); [rewrite E, <- app_assoc; reflexivity|].
      replace (length (pre ++ [192; 12]%N)) with (length pre + 2) by (rewrite app_length; reflexivity).
      apply name_ptr with 12; [|lia|apply T]. exists 192%N, 12%N. split; [rewrite E; apply nth_here; reflexivity|]. split; [lia|].
      split; [|split; [lia|reflexivity]]. rewrite E, nth_error_app2 by lia. replace (length pre + 1 - length pre) with 1 by lia. reflexivity.
    + rewrite X. apply IH; [lia|]. rewrite E, <- app_assoc. reflexivity.
Qed.
Lemma growing_bytes k m : (N.of_nat m < 65535)%N -> byte_list (growing k m).
Proof.
  intros L. unfold growing. set (n := N.of_nat (S m)). cbv zeta. apply Forall_app. split; [subst n; repeat constructor; lia|]. rewrite !Forall_app. repeat split.
  - clear. induction k as [|k IH]; cbn [repeat concat]; [constructor|]. apply Forall_app. split; [repeat constructor; lia|exact IH].
  - repeat constructor; lia.
  - clear. induction m as [|m IH]; cbn [repeat concat]; [constructor|]. apply Forall_app. split; [repeat constructor; lia|exact IH].
Qed.
Lemma growing_read c k m : (N.of_nat m < 65535)%N -> 
  exists p, packet_try_from c (growing k m) = Ok p /\ held p = S m * (2 * k + 2) /\ p_questions p = repeat (growing_question k) (S m).
Proof.
  intros L. set (d := growing k m). set (n := N.of_nat (S m)).
  set (hd := [0; 0; 0; 0; n / 256; n mod 256; 0; 0; 0; 0; 0; 0]%N).
  assert (Bh : byte_list hd) by (subst hd n; repeat constructor; try lia).
  destruct (header_of_bytes hd Bh eq_refl) as (h & T & Eh).
  assert (F : firstn 12 d = hd) by reflexivity.
  assert (B : byte_list d) by (apply growing_bytes, L).
  exists {| p_header := h; p_questions := repeat (growing_question k) (S m); p_answers := []; p_authorities := []; p_additionals := [] |}. split.
  - apply (C34_layout c d _ B). exists (length d). unfold packet_at. cbn [p_header p_questions p_answers p_authorities p_additionals]. rewrite F.
    split; [unfold d; rewrite growing_length; lia|]. split; [exact Bh|]. split; [exact T|]. split; [rewrite <- Eh, fields_view by exact T; reflexivity|].
    split.
    { rewrite repeat_length. fold n. unfold fields_of, d, growing. cbn [nth app v_qd v_an v_ns v_ar length]. fold n. subst n. repeat split; lia. }
    exists (length d), (length d), (length d). split; [|repeat constructor].
    assert (D : d = hd ++ concat (repeat [1; 97]%N k) ++ 0%N :: [0; 1; 0; 1]%N ++ concat (repeat [192; 12; 0; 1; 0; 1]%N m)) by reflexivity.
    set (pre := hd ++ concat (repeat [1; 97]%N k) ++ [0]%N).
    assert (Lp : length pre = 13 + 2 * k) by (unfold pre; rewrite !app_length, concat_length; cbn [length hd]; lia).
    cbn [repeat]. apply one_more with (length pre + 4); [|lia|].
    + apply rest_of_question with (concat (repeat [192; 12; 0; 1; 0; 1]%N m)); [rewrite D; unfold pre; rewrite <- !app_assoc; reflexivity|].
      replace (length pre) with (length hd + 2 * k + 1) by (rewrite Lp; cbn [length hd]; lia). rewrite D. apply name_a.
    + replace (length pre + 4) with (length (pre ++ [0; 1; 0; 1]%N)) by (rewrite app_length; reflexivity). apply pointing.
      * intros lim. rewrite D. apply (tail_a k hd).
      * rewrite app_length, Lp. lia.
      * rewrite D. unfold pre. rewrite <- !app_assoc. reflexivity.
  - split; [|reflexivity]. unfold held. cbn [p_questions p_answers p_authorities p_additionals app]. change (total held_record []) with 0. rewrite Nat.add_0_r.
    assert (O : octets_in_name (repeat [97]%N k) = 2 * k + 1) by (clear; unfold octets_in_name; induction k as [|k IH]; cbn [repeat fold_right length]; [reflexivity|rewrite IH; lia]).
    generalize (S m). clear - O. intros m. unfold total. induction m as [|m IH]; cbn [repeat fold_right]; [reflexivity|]. rewrite IH.
    unfold growing_question at 1, question_new. cbn [q_name]. rewrite O. lia.
Qed.

(** ** C75 *)
(** Never more than 192 times the square of its length. *)
Theorem C75_bound_partial : forall (c : cfg) (d : bytes) (p : packet), byte_list d -> allocatable d -> packet_try_from c d = Ok p ->
  held p <= 192 * length d * length d.
Proof. intros c d p B A H. apply (C34_exact c d p B A) in H as [e H]. exact (packet_weighs c d p e H). Qed.
(** But not in proportion to it: questions that point to one long name. *)
Theorem C75_linear_refuted : forall (c : cfg) (factor : nat), (N.of_nat factor < 65535)%N ->
  exists (d : bytes) (p : packet), packet_try_from c d = Ok p /\ factor * length d < held p.
Proof.
  intros c f L. destruct (growing_read c (3 * f * f + 8 * f) f L) as (p & E & H & _). exists (growing (3 * f * f + 8 * f) f), p. split; [exact E|].
  rewrite H, growing_length. nia.
Qed.
(** A message of 65535 octets, the longest that UDP or TCP carries: 178 million octets. *)
Theorem C75_largest_refuted : forall c : cfg, exists (d : bytes) (p : packet), packet_try_from c d = Ok p /\
  N.of_nat (length d) = 65535%N /\ N.of_nat (held p) = 178902360%N.
Proof.
  intros c. destruct (growing_read c (N.to_nat 16379) (N.to_nat 5460)) as (p & E & H & _); [lia|]. eexists. exists p. split; [exact E|]. rewrite H, growing_length. lia.
Qed.
Example C75_ex : exists p, packet_try_from ex_cfg ex_message = Ok p /\ byte_list ex_message /\ allocatable ex_message /\ (100 < held p <= 192 * length ex_message * length ex_message).
Proof.
  exists ex_packet. assert (E : packet_try_from ex_cfg ex_message = Ok ex_packet) by (vm_compute; reflexivity).
  assert (B : byte_list ex_message) by (vm_compute; repeat constructor). assert (A : allocatable ex_message) by (vm_compute; discriminate).
  split; [exact E|]. split; [exact B|]. split; [exact A|]. split; [apply Nat.ltb_lt; vm_compute; reflexivity|]. exact (C75_bound_partial _ _ _ B A E).
Qed.
Example C75_growing_ex : exists p, packet_try_from ex_cfg (growing 20 10) = Ok p /\ length (growing 20 10) = 117 /\ held p = 462.
Proof. destruct (growing_read ex_cfg 20 10) as (p & E & H & _); [lia|]. exists p. split; [exact E|]. split; [reflexivity|exact H]. Qed.
Print Assumptions C75_bound_partial.
Print Assumptions C75_linear_refuted.
Print Assumptions C75_largest_refuted.

(** ** C58: the names in record data too *)
(** All names in the data of a record. *)
Definition names_in_data (x : rdata) : list fqdn :=
  match x with
  | DNS f | DCNAME f | DPTR f => [f]
  | DSOA x => [soa_mname x; soa_rname x]
  | DMINFO x => [minfo_r x; minfo_e x]
  | DMX x => [mx_exchange x]
  | DSRV x => [srv_target x]
  | DNAPTR x => [na_repl x]
  | DIPSECKEY x => match ip_gw x with GwDomain f => [f] | _ => [] end
  | DRRSIG x => [rs_signer x]
  | DNSEC x => [ns_next x]
  | DHIP x => match hip_rv x with Some l => l | None => [] end
  | DSVCB x => [sv_target x]
  | DTKEY x => [tk_alg x]
  | DTSIG x => [ts_alg x]
  | _ => []
  end.
Definition every_name (p : packet) : list fqdn :=
  map q_name (p_questions p) ++ flat_map (fun r => rr_name r :: names_in_data (rr_data r)) (p_answers p ++ p_authorities p ++ p_additionals p).
Lemma data_names c w x q e : laid (pieces w c x) q e -> Forall (fun f => exists p k, name_at w 191 p f k) (names_in_data x).
Proof.
  intros L. destruct x; cbn [names_in_data pieces laid name] in *; try apply Forall_nil;
    repeat match goal with H : exists _, _ |- _ => destruct H | H : _ /\ _ |- _ => destruct H end; try (repeat (apply Forall_cons; [eexists; eexists; eassumption|]); apply Forall_nil).
  - destruct (ip_gw x); try apply Forall_nil. apply Forall_cons; [|apply Forall_nil]. cbn [gateway_at] in *. unfold name in *. eauto.
  - destruct (hip_rv x) as [l|]; [|apply Forall_nil]. match goal with H : servers _ _ _ _ |- _ => destruct H as (_ & C & _) end.
    clear - C. induction C as [|p f m l e N _ _ IH]; constructor; [unfold name in N; eauto|exact IH].
Qed.
(** Every name of a packet stands somewhere in the message. *)
Theorem C58_every_name : forall (c : cfg) (d : bytes) (p : packet), byte_list d -> allocatable d -> packet_try_from c d = Ok p ->
  Forall (fun f => (exists q k, name_at d 191 q f k) /\ length f < length d /\ Forall (fun l : bytes => 1 <= length l <= 191) f /\ octets_in_name f <= 192 * (length d - 1) + 1) (every_name p).
Proof.
  intros c d p B A E. apply C34_exact in E; [|exact B|exact A]. destruct E as (e & _ & _ & _ & _ & _ & e1 & e2 & e3 & C1 & C2 & C3 & C4).
  cut (Forall (fun f => exists q k, name_at d 191 q f k) (every_name p)).
  { intros F. eapply Forall_impl; [|exact F]. intros f (q & k & N). split; [eauto|]. exact (name_bounded _ _ _ _ N). }
  assert (R : forall p rs e, consecutive (record_on_wire c d) p rs e -> Forall (fun f => exists q k, name_at d 191 q f k) (flat_map (fun r => rr_name r :: names_in_data (rr_data r)) rs)).
  { clear. intros p rs e C. induction C as [|p r m rs e H _ _ IH]; cbn [flat_map app]; [constructor|]. destruct H as (k & v & n & N & _ & _ & _ & _ & _ & _ & _ & _ & _ & _ & _ & (x & _ & D)).
    constructor; [eauto|]. apply Forall_app. split; [|exact IH]. eapply Forall_impl; [|exact (data_names c _ _ _ _ D)]. intros f (a & b & F).
    exists a, b. rewrite <- (firstn_skipn m d). apply name_at_ext, F. }
  unfold every_name. rewrite !flat_map_app, !Forall_app. split; [|split; [|split]]; [|eapply R; eassumption..].
  clear - C1. induction C1 as [|i q m qs j (k & v & N & _) _ C IH]; cbn [map]; constructor; [eauto|exact IH].
Qed.
(** A message with a mail exchange, whose name points to the question. *)
Example C58_ex_every : let d : bytes := [0; 1; 128; 0; 0; 1; 0; 1; 0; 0; 0; 0; 1; 97; 0; 0; 15; 0; 1; 192; 12; 0; 15; 0; 1; 0; 0; 0; 60; 0; 6; 0; 5; 1; 109; 192; 12]%N in
  byte_list d /\ allocatable d /\ exists p, packet_try_from ex_cfg d = Ok p /\ every_name p = [[[97]]; [[97]]; [[109]; [97]]]%N.
Proof. cbv zeta. split; [repeat constructor|]. split; [vm_compute; discriminate|]. eexists. split; vm_compute; reflexivity. Qed.
Print Assumptions C58_every_name.
