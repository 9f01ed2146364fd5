(** * C76: room reserved ahead of reading. *)
From Coq Require Import Lia ZifyNat ZifyN.
From Verif Require Import Base Buffer Fqdn Header Types RDataBasic Bitmap Svcb RDataSec RData Packet BaseFacts NameSpec HeaderSpec WireSpec ParseFacts Reserve PropName PropRecord PropPacket PropWire.

Definition sum (l : list N) : N := fold_right N.add 0 l.

Lemma run_some {A} c k (Q : A -> Prop) p d q v b : run_ok c k Q p -> byte_list d -> (q <= length d)%nat -> p (mkbuf d q) = (Ok v, b) ->
  exists q', b = mkbuf d q' /\ (q + k <= q' <= length d)%nat /\ Q v.
Proof. intros H B L E. specialize (H d q B L). rewrite E in H. destruct b as [d' q']. cbn [data pos] in H. destruct H as (-> & P & V). eauto. Qed.

(** ** C76 *)
(** Twelve octets make the parser reserve room for 65535 records before it reads the first one. *)
Theorem C76_header_refuted : forall c : cfg, exists d : bytes, length d = 12%nat /\ byte_list d /\ packet_reserves c d = [0; 65535].
Proof. intros [[] [] []]; exists [0; 0; 0; 0; 0; 0; 255; 255; 0; 0; 0; 0]; (split; [reflexivity|split; [repeat constructor|vm_compute; reflexivity]]). Qed.
(** Not more than that beyond what the message has room for. *)
Theorem C76_bound_partial : forall (c : cfg) (d : bytes), byte_list d -> sum (packet_reserves c d) <= N.of_nat (length d) / 5 + 65535.
Proof.
  intros c d B. unfold packet_reserves, packet_reserves_buf, buf_from.
  destruct (header_try_from (mkbuf d 0)) as [[h| | |] b1] eqn:E1; try (cbn; lia).
  destruct (run_some c _ _ _ _ _ _ _ (ok_header c) B (Nat.le_0_l _) E1) as (q1 & -> & P1 & _ & _ & T3 & T4 & T5 & T6).
  destruct (repeatP (N.to_nat (ques_count h)) (question_try_from c) (mkbuf d q1)) as [[qs| | |] b2] eqn:E2; try (cbn [sum fold_right]; lia).
  destruct (run_some c _ _ _ _ _ _ _ (ok_repeat c _ _ _ (N.to_nat (ques_count h)) (ok_question c)) B (proj2 P1) E2) as (q2 & -> & P2 & _).
  destruct (repeatP (N.to_nat (ans_count h)) (rr_try_from c) (mkbuf d q2)) as [[an| | |] b3] eqn:E3; try (cbn [sum fold_right]; lia).
  destruct (run_some c _ _ _ _ _ _ _ (ok_repeat c _ _ _ (N.to_nat (ans_count h)) (ok_rr c)) B (proj2 P2) E3) as (q3 & -> & P3 & _).
  destruct (repeatP (N.to_nat (auth_count h)) (rr_try_from c) (mkbuf d q3)) as [[au| | |] b4] eqn:E4; try (cbn [sum fold_right]; lia).
  destruct (run_some c _ _ _ _ _ _ _ (ok_repeat c _ _ _ (N.to_nat (auth_count h)) (ok_rr c)) B (proj2 P3) E4) as (q4 & -> & P4 & _).
  cbn [sum fold_right]. lia.
Qed.
(** For an accepted message exactly what is used. *)
Theorem C76_accepted_partial : forall (c : cfg) (d : bytes) (p : packet), byte_list d -> packet_try_from c d = Ok p ->
  packet_reserves c d = map N.of_nat [length (p_questions p); length (p_answers p); length (p_authorities p); length (p_additionals p)].
Proof.
  intros c d p B E. unfold packet_try_from in E. destruct (packet_try_from_buf c (buf_from d)) as [r b] eqn:Eb. cbn [fst] in E. subst r.
  unfold packet_reserves, packet_reserves_buf. unfold packet_try_from_buf, bind, ret in Eb.
  destruct (header_try_from (buf_from d)) as [[h| | |] b1] eqn:E1; try discriminate Eb.
  destruct (repeatP (N.to_nat (ques_count h)) (question_try_from c) b1) as [[qs| | |] b2] eqn:E2; try discriminate Eb.
  destruct (repeatP (N.to_nat (ans_count h)) (rr_try_from c) b2) as [[an| | |] b3] eqn:E3; try discriminate Eb.
  destruct (repeatP (N.to_nat (auth_count h)) (rr_try_from c) b3) as [[au| | |] b4] eqn:E4; try discriminate Eb.
  destruct (repeatP (N.to_nat (add_count h)) (rr_try_from c) b4) as [[ad| | |] b5] eqn:E5; try discriminate Eb.
  injection Eb as <- _. cbn [p_questions p_answers p_authorities p_additionals map].
  assert (R : forall X (f : P X) n b l b', repeatP n f b = (Ok l, b') -> length l = n).
  { clear. intros X f. induction n as [|n IH]; intros b l b' E; cbn [repeatP] in E; [injection E as <- _; reflexivity|]. unfold bind, ret in E.
    destruct (f b) as [[x| | |] b1]; try discriminate E. destruct (repeatP n f b1) as [[xs| | |] b2] eqn:E2; try discriminate E. injection E as <- _.
    cbn [length]. f_equal. exact (IH _ _ _ E2). }
  apply R in E2, E3, E4, E5. rewrite E2, E3, E4, E5, !N2Nat.id. reflexivity.
Qed.
Example C76_ex : byte_list ex_message /\ packet_try_from ex_cfg ex_message = Ok ex_packet /\ packet_reserves ex_cfg ex_message = [1; 2; 0; 1].
Proof. split; [vm_compute; repeat constructor|]. split; vm_compute; reflexivity. Qed.
Print Assumptions C76_header_refuted.
Print Assumptions C76_bound_partial.
Print Assumptions C76_accepted_partial.
