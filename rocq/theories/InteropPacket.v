(** * Questions, records and messages in their place *)
From Coq Require Import Sorting.Sorted Lia ZifyBool ZifyNat ZifyN.
From Verif Require Import Base Utf8 Buffer Fqdn Header Types RDataBasic Bitmap Svcb RDataSec RData Packet BaseFacts Utf8Facts BufferFacts NameSpec FqdnLoop FqdnFacts BitmapFacts NameProps
  CodeSpec CodeFacts RDataSpec RDataFacts ParseFacts HeaderSpec HeaderFacts WireSpec WireFacts SvcbParse FailSpec FailFacts FieldSpec FieldFacts LayoutSpec LayoutFacts LayoutUnique ReadSpec ReadFacts
  RecordSpec PacketFacts ApiSpec InteropSpec InteropFacts.
Ltac Zify.zify_post_hook ::= Z.div_mod_to_equations.

Lemma qtype_numbered t n : number_in iana_qtypes t n -> n = qtype_code t.
Proof.
  assert (F : Forall (fun x => snd x = qtype_code (fst x)) iana_qtypes) by (repeat constructor). rewrite Forall_forall in F. intros I. apply (F (t, n) I).
Qed.
Section Message.
  Context (c : cfg) (d : bytes) (B : byte_list d).
  Lemma num_u16 v p e : num d 2 v p e -> u16_at d p v /\ e = (p + 2)%nat.
  Proof. intros (N & ->). split; [apply u16_number; assumption|reflexivity]. Qed.
  Lemma num_u32 v p e : num d 4 v p e -> u32_at d p v /\ e = (p + 4)%nat.
  Proof. intros ((L & ->) & ->). split; [|reflexivity]. apply u32_slice_at; assumption. Qed.
  Lemma question_there p q e : question_understood c q -> fields_at d (question_fields c q) p e -> question_at c d p q e /\ (p < e)%nat.
  Proof.
    intros (D & M) H. unfold question_fields in H. next H. next H. next H. apply fa_nil in H. subst m1.
    apply (fa_name d B) in F. apply fa_code with (n := qtype_code (q_type q)) in F0; [|apply qtype_numbered].
    apply num_u16 in F0. destruct F0 as (F0 & ->). apply fa_reg in F1. destruct F1 as (v & (k & I & ->) & F1). apply num_u16 in F1. destruct F1 as (F1 & ->).
    pose proof (name_at_end _ _ _ _ F). split; [|lia]. exists m, (k + flag (mdns c && q_unicast q) 32768). split; [exact F|]. split; [exact F0|]. split; [exact D|].
    split; [exact F1|].
    assert (K : qclass_code (q_class q) = k /\ k < 32768) by (destruct (q_class q); cbn in I; one_of I; try discriminate; injection I as <-; split; reflexivity).
    destruct K as (-> & K). unfold top_bit. destruct (mdns c) eqn:E; cbn [andb].
    - destruct (q_unicast q); cbn [flag]; (split; [lia|]; split; [|lia]); lia.
    - rewrite (M eq_refl). cbn [flag]. split; [lia|]. split; [reflexivity|lia].
  Qed.
  Lemma record_there p r e : allocatable d -> (p <= length d)%nat -> record_understood c r -> fields_at d (record_fields c r) p e -> record_on_wire c d p r e /\ (p < e)%nat.
  Proof.
    intros A L (D & T & P & S & M & Ty & U) H. pose proof (fields_end d B _ _ _ H L) as Le. unfold record_fields in H. next H. next H. next H. next H. next H. apply fa_nil in H. subst m3.
    apply (fa_name d B) in F. apply rtype_num in F0. apply num_u16 in F0. destruct F0 as (F0 & ->).
    apply fa_reg in F1. destruct F1 as (v & (k & I & ->) & F1). apply num_u16 in F1. destruct F1 as (F1 & ->).
    apply fa_number in F2. apply num_u32 in F2. destruct F2 as (F2 & ->).
    apply (proj1 (fields_prefix d e)) in F3 as F4; [|exact (le_n e)]. pose proof (proj1 (field_start d) _ _ _ F3).
    apply fa_prefixed in F3. destruct F3 as (F3 & F5). apply num_u16 in F3. destruct F3 as (F3 & _). pose proof (proj2 (field_start d) _ _ _ F5).
    apply fa_prefixed in F4. destruct F4 as (_ & F4). pose proof (name_at_end _ _ _ _ F). split; [|lia].
    assert (Lf : length (firstn e d) = e) by (rewrite firstn_length; lia).
    exists m, (k + flag (mdns c && rr_flush r) 32768), (N.of_nat (e - (m + 10))).
    replace (m + 2 + 2)%nat with (m + 4)%nat in * by lia. replace (m + 4 + 4)%nat with (m + 8)%nat in * by lia. replace (m + 8 + 2)%nat with (m + 10)%nat in * by lia.
    split; [exact F|]. split; [exact F0|]. split; [exact D|]. split; [exact T|]. split; [exact F1|].
    assert (K : rclass_code (rr_class r) = k /\ k < 32768).
    { destruct I as [I|I]; [|rewrite I in *; cbn [rclass_code]; auto]. destruct (rr_class r); cbn in I; one_of I; try discriminate; injection I as <-; split; reflexivity. }
    destruct K as (K1 & K). split; [rewrite K1; unfold flag; destruct (mdns c && rr_flush r); lia|]. split; [exact P|].
    split; [unfold top_bit; destruct (mdns c) eqn:Em; cbn [andb]; [destruct (rr_flush r); cbn [flag]; lia|apply M; reflexivity]|].
    split; [exact F2|]. split; [exact F3|]. split; [lia|]. split; [exact Le|]. exists e. split; [lia|].
    rewrite <- Lf at 2. apply rdata_there; [apply byte_list_firstn, B|exact Ty|exact U|]. rewrite Lf. exact F4.
  Qed.
  Lemma numbers_there fs : forallb (fun f => match f with Number _ _ => true | _ => false end) fs = true ->
    forall p e, (p <= length d)%nat -> fields_at d fs p e -> exists bs, fields_octets fs bs /\ octets d bs p e.
  Proof.
    induction fs as [|f fs IH]; intros N p e L H.
    - apply fa_nil in H. subst e. exists []. split; [constructor|]. apply octets_is. cbn [length]. split; [lia|]. split; [reflexivity|lia].
    - cbn [forallb] in N. apply andb_prop in N. destruct N as (Nf & N). next H. pose proof (proj2 (field_start d) _ _ _ H).
      apply fa_other in F; [|destruct f; try discriminate; exact I]. destruct F as (a & Fa & O & ->).
      apply IH in H; [|exact N|apply O]. destruct H as (bs & Fb & Ob). exists (a ++ bs). split; [constructor; assumption|].
      apply octets_is. apply octets_is in Ob. destruct Ob as (Lb & Sb & ->). destruct O as (La & Sa). rewrite app_length. split; [lia|]. split; [|lia].
      rewrite slice_add. congruence.
  Qed.
  Lemma message_there p e : allocatable d -> header_typed (p_header p) -> counts_of p = true_counts p -> Forall (question_understood c) (p_questions p) ->
    Forall (record_understood c) (records_of p) -> fields_at d (message_fields c p) 0 e -> packet_on_wire c d p e.
  Proof.
    intros A Th C Q R H. unfold message_fields in H. apply fa_app in H. destruct H as (h & Hh & H).
    assert (V : mkview (v_id (view (p_header p))) (v_qr (view (p_header p))) (v_opcode (view (p_header p))) (v_aa (view (p_header p))) (v_tc (view (p_header p))) (v_rd (view (p_header p)))
      (v_ra (view (p_header p))) (v_z (view (p_header p))) (v_rcode (view (p_header p))) (count (p_questions p)) (count (p_answers p)) (count (p_authorities p)) (count (p_additionals p)) = view (p_header p)).
    { unfold counts_of, true_counts in C. injection C as C1 C2 C3 C4. unfold count. rewrite <- C1, <- C2, <- C3, <- C4. reflexivity. }
    rewrite V in Hh. apply numbers_there in Hh; [|reflexivity|lia]. destruct Hh as (bs & Fb & Ob). apply (header_exact _ _ Th) in Fb. subst bs.
    apply octets_is in Ob. destruct Ob as (Lb & Sb & ->).
    pose proof (fields_view _ Th) as Fv. assert (L12 : length (header_to_bytes (p_header p)) = 12%nat) by reflexivity. rewrite L12 in *. cbn [Nat.add] in *.
    unfold slice in Sb. cbn [skipn] in Sb. rewrite Sb in Fv.
    apply fa_app in H. destruct H as (e1 & H1 & H). apply fa_app in H. destruct H as (e2 & H2 & H). apply fa_app in H. destruct H as (e3 & H3 & H4).
    pose proof (fields_end d B _ _ _ H1 ltac:(lia)) as L1. pose proof (fields_end d B _ _ _ H2 L1) as L2. pose proof (fields_end d B _ _ _ H3 L2) as L3.
    pose proof (fields_end d B _ _ _ H4 L3) as L4. rewrite Forall_forall in Q, R.
    split; [exact Lb|]. split; [apply byte_list_firstn, B|]. split; [exact Th|]. split; [symmetry; exact Fv|].
    rewrite fields_firstn in Fv by exact Lb. split.
    { rewrite Fv. unfold counts_of, true_counts in C. injection C as C1 C2 C3 C4. cbn [view v_qd v_an v_ns v_ar]. auto. }
    exists e1, e2, e3.
    assert (X : forall rs q e', incl rs (records_of p) -> (q <= length d)%nat -> (e' <= length d)%nat -> fields_at d (flat_map (record_fields c) rs) q e' -> consecutive (record_on_wire c d) q rs e').
    { intros rs q e' I Lq Le' F. apply (fa_flat d (record_fields c) (record_on_wire c d)) in F; [exact F| |exact Le'].
      intros x q' m Ix Lm Fx. apply record_there; [exact A| |apply R, I, Ix|exact Fx]. pose proof (proj2 (field_start d) _ _ _ Fx). lia. }
    unfold records_of in X.
    split; [|split; [|split]].
    - apply (fa_flat d (question_fields c) (question_at c d)) in H1; [exact H1| |exact L1]. intros x q m Ix Lm Fx. apply question_there; [apply Q, Ix|exact Fx].
    - apply X; try assumption. intros x Ix. apply in_or_app. left. exact Ix.
    - apply X; try assumption. intros x Ix. apply in_or_app. right. apply in_or_app. left. exact Ix.
    - apply X; try assumption. intros x Ix. apply in_or_app. right. apply in_or_app. right. exact Ix.
  Qed.
  Lemma message_understood p e : allocatable d -> header_typed (p_header p) -> counts_of p = true_counts p -> Forall (question_understood c) (p_questions p) ->
    Forall (record_understood c) (records_of p) -> fields_at d (message_fields c p) 0 e -> packet_try_from c d = Ok p.
  Proof.
    intros A Th C Q R H. apply packet_iff; [exact B|]. exists e. apply packet_wire; [exact B|exact A|]. apply message_there; assumption.
  Qed.
End Message.
