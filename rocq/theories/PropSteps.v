(** * C79: how much work it is to parse a message.

    [packet_steps c d] (Steps.v) counts the calls of the buffer, the turns of the loop over labels and the octets handed out. *)
From Coq Require Import Lia ZifyNat ZifyN.
From Verif Require Import Base Buffer Fqdn Header Types RDataBasic Bitmap Svcb RDataSec RData Packet Steps BaseFacts NameSpec FqdnFacts WalkFacts ParseFacts ObjectSpec HeldSpec StepsFacts
  PropName PropRecord PropPacket PropWire PropHeld.

(** The counted parser is the parser. *)
Theorem C79_counted : forall (c : cfg) (b : buf), fst (packet_try_from_buf_t c b) = packet_try_from_buf c b.
Proof. exact same_packet. Qed.
(** No work is left out of the count: what is done one after the other adds up, and the work for the data of a record and for a parameter of SVCB is
    in the work for the whole, with whatever result. *)
Theorem C79_nothing_lost : forall (A B : Type) (p : T A) (f : A -> T B) (c : cfg) (b : buf),
  snd (tbind p f b) = snd (p b) + match fst (fst (p b)) with Ok a => snd (f a (snd (fst (p b)))) | _ => 0 end /\
  (forall len sb, sub_buffer b len = Ok sb -> snd (p sb) < snd (framed_t len p b)) /\
  (forall acc sb, sub_buffer b (remaining b) = Ok sb -> snd (param_try_from_t c sb) < snd (param_step_t c acc b)).
Proof.
  intros A B p f c b. split; [|split].
  - unfold tbind. destruct (p b) as [[[a|e| |] b'] n]; cbn [fst snd]; try lia. destruct (f a b') as [r m]. reflexivity.
  - intros len sb E. unfold framed_t. rewrite E. destruct (p sb) as [[[a|e| |] b'] n]; cbn [fst snd]; try lia. destruct (tbind _ _ b) as [r m]. cbn [snd]. lia.
  - intros acc sb E. unfold param_step_t. rewrite E. destruct (param_try_from_t c sb) as [[[a|e| |] b'] n]; cbn [fst snd]; try lia. destruct (tbind _ _ b) as [r m]. cbn [snd]. lia.
Qed.
(** When parsing comes to an end at all, with whatever result, the work is at most quadratic in the length of the message. *)
Theorem C79_bound_partial : forall (c : cfg) (d : bytes), byte_list d -> packet_try_from c d <> Diverge ->
  packet_steps c d <= 192 * N.of_nat (length d) * N.of_nat (length d) + 221 * N.of_nat (length d) + 66.
Proof. exact packet_costs. Qed.
(** It is linear, and always comes to an end, where no octet can begin a compression pointer. *)
Theorem C79_no_pointer : forall (c : cfg) (d : bytes), Forall (fun x => x < 192) d ->
  packet_try_from c d <> Diverge /\ packet_steps c d <= 26 * N.of_nat (length d) + 63.
Proof.
  intros c d H. assert (D : packet_try_from c d <> Diverge).
  { intros E. destruct (packet_try_diverge c d (no_pointer_bytes d H) E) as (e & p & C).
    assert (F : Forall (fun x => x < 192) (firstn e d)) by (rewrite <- (firstn_skipn e d) in H; apply Forall_app in H; apply H).
    apply (C08_no_pointer_terminates_partial _ p F). apply fqdn_diverge_iff; [exact (no_pointer_bytes _ F)|exact C]. }
  split; [exact D|exact (packet_plain_costs c d H D)].
Qed.
(** Without an end: a name that points to itself.  The work done exceeds every number. *)
Theorem C79_endless_refuted : forall c : cfg, packet_try_from c (one_question ++ [192; 12]) = Diverge /\
  forall n : N, exists turns : nat, n <= fqdn_steps (one_question ++ [192; 12]) turns None 12.
Proof.
  intros c. split; [apply C36_loop_refuted|]. intros n.
  assert (G : forall f, fqdn_steps (one_question ++ [192; 12]) (S f) None 12 = 3 + fqdn_steps (one_question ++ [192; 12]) f (Some 13%nat) 12) by reflexivity.
  assert (G' : forall f, fqdn_steps (one_question ++ [192; 12]) (S f) (Some 13%nat) 12 = 3 + fqdn_steps (one_question ++ [192; 12]) f (Some 13%nat) 12) by reflexivity.
  exists (S (N.to_nat n)). rewrite G. assert (K : forall f, N.of_nat f <= fqdn_steps (one_question ++ [192; 12]) f (Some 13%nat) 12) by (induction f as [|f IH]; [apply N.le_0_l|rewrite G'; lia]).
  specialize (K (N.to_nat n)). lia.
Qed.
(** Not linear: questions that point to one long name. *)
Lemma growing_steps c k m : (N.of_nat m < 65535)%N -> exists p, packet_try_from c (growing k m) = Ok p /\ N.of_nat (S m * (2 * k + 1)) <= packet_steps c (growing k m).
Proof.
  intros L. destruct (growing_read c k m L) as (p & E & _ & Q). exists p. split; [exact E|]. pose proof (packet_least c _ p (growing_bytes k m L) E) as H.
  replace (S m * (2 * k + 1))%nat with (questions_octets (p_questions p)); [exact H|]. rewrite Q. clear.
  assert (O : octets_in_name (repeat [97] k) = (2 * k + 1)%nat) by (unfold octets_in_name; induction k as [|k IH]; cbn [repeat fold_right length]; [reflexivity|rewrite IH; lia]).
  induction (S m) as [|n IH]; [reflexivity|]. cbn [repeat questions_octets fold_right]. fold (questions_octets (repeat (growing_question k) n)). rewrite IH.
  unfold growing_question, question_new. cbn [q_name]. rewrite O. lia.
Qed.
Theorem C79_linear_refuted : forall (c : cfg) (factor : nat), (N.of_nat factor < 65535)%N ->
  exists (d : bytes) (p : packet), packet_try_from c d = Ok p /\ N.of_nat (factor * length d) < packet_steps c d.
Proof.
  intros c f L. destruct (growing_steps c (3 * f * f + 9 * f) f L) as (p & E & H). exists (growing (3 * f * f + 9 * f) f), p. split; [exact E|].
  eapply N.lt_le_trans; [|exact H]. rewrite growing_length. assert (f * (17 + 2 * (3 * f * f + 9 * f) + 6 * f) < S f * (2 * (3 * f * f + 9 * f) + 1))%nat by nia. lia.
Qed.
(** A message of 65535 octets, the longest that UDP or TCP carries: 178 million steps. *)
Theorem C79_largest_refuted : forall c : cfg, exists (d : bytes) (p : packet), packet_try_from c d = Ok p /\
  N.of_nat (length d) = 65535 /\ 178896899 <= packet_steps c d.
Proof.
  intros c. destruct (growing_steps c (N.to_nat 16379) (N.to_nat 5460)) as (p & E & H); [lia|]. eexists. exists p. split; [exact E|]. rewrite growing_length. split; [lia|].
  eapply N.le_trans; [|exact H]. lia.
Qed.
Example C79_ex : packet_try_from ex_cfg ex_message = Ok ex_packet /\ byte_list ex_message /\ packet_steps ex_cfg ex_message = 248 /\
  packet_steps ex_cfg (growing 20 10) = 565.
Proof. split; [vm_compute; reflexivity|]. split; [vm_compute; repeat constructor|]. split; vm_compute; reflexivity. Qed.
Example C79_ex_plain : Forall (fun x => x < 192) (one_question ++ fqdn_to_bytes ex_www ++ [0; 1; 0; 1]) /\
  (exists p, packet_try_from ex_cfg (one_question ++ fqdn_to_bytes ex_www ++ [0; 1; 0; 1]) = Ok p) /\
  packet_steps ex_cfg (one_question ++ fqdn_to_bytes ex_www ++ [0; 1; 0; 1]) = 41.
Proof. split; [repeat constructor|]. split; [eexists; vm_compute; reflexivity|vm_compute; reflexivity]. Qed.
Print Assumptions C79_counted.
Print Assumptions C79_nothing_lost.
Print Assumptions C79_bound_partial.
Print Assumptions C79_no_pointer.
Print Assumptions C79_endless_refuted.
Print Assumptions C79_linear_refuted.
Print Assumptions C79_largest_refuted.
