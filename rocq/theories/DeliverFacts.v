(** * Facts about signatures in messages of the plain form. *)
From Coq Require Import Lia ZifyBool ZifyNat ZifyN.
From Verif Require Import Base Buffer Fqdn Header Types RDataBasic RDataSec RData Packet BaseFacts BufferFacts FqdnFacts HeaderSpec HeaderFacts RDataSpec RecordSpec RDataReads RDataFacts RecordFacts PacketFacts DeliverSpec.

Lemma signature_cut c q r sg o : rr_ok c q -> rr_data q = DRRSIG r -> rs_sig r = sg ++ [o] -> N.of_nat (length (rrsig_to_bytes r)) <= 65535 ->
  exists w, rr_to_bytes c q = Ok (w ++ [o]) /\ forall pre suf, reads pre suf (rr_try_from c) w (carrying q (DRRSIG (with_signature r sg))).
Proof.
  intros (H & T & F) D S B. set (r' := with_signature r sg). set (q' := carrying q (DRRSIG r')).
  assert (E : rrsig_to_bytes r = rrsig_to_bytes r' ++ [o]). { unfold rrsig_to_bytes, r', with_signature. cbn [rs_type rs_alg rs_labels rs_ttl rs_exp rs_inc rs_tag rs_signer rs_sig]. rewrite S, <- !app_assoc. reflexivity. }
  assert (L : rrsig_byte_size r = length (rrsig_to_bytes r')).
  { unfold rrsig_byte_size, r', rrsig_to_bytes, with_signature. cbn [rs_type rs_alg rs_labels rs_ttl rs_exp rs_inc rs_tag rs_signer rs_sig]. rewrite !app_length, !be_length, S, app_length. cbn [length]. unfold fqdn_len. rewrite fqdn_byte_size_eq. lia. }
  exists (fqdn_to_bytes (rr_name q') ++ be 2 (rtype_code (rr_type q')) ++ be 2 (rr_class_field c q') ++ be 4 (rr_ttl q') ++ be 2 (N.of_nat (length (rrsig_to_bytes r'))) ++ rrsig_to_bytes r'). split.
  - unfold rr_to_bytes, rr_byte_size. rewrite D. cbn [rdata_byte_size rdata_to_bytes rbind]. rewrite L, E. unfold len16, u16. rewrite N.mod_small by (rewrite E, app_length in B; cbn [length] in B; lia). rewrite <- !app_assoc. reflexivity.
  - intros pre suf. apply reads_rr_gen.
    + destruct H as (H1 & H2 & H3 & H4 & H5 & H6). rewrite D in H3. exact (conj H1 (conj H2 (conj H3 (conj H4 (conj H5 H6))))).
    + rewrite E, app_length in B. cbn [length] in B. lia.
    + intros s. apply reads_fqdn. apply H.
    + change (rr_data q') with (DRRSIG r'). rewrite D in T, F. apply reads_rdata; [|exact F|reflexivity]. split; [apply T|]. destruct T as [_ T]. exact T.
Qed.
Lemma signature_short c p rs q r sg o : header_typed (p_header p) -> Forall (question_ok c) (p_questions p) -> small_sections p ->
  p_answers p = rs ++ [q] -> p_authorities p = [] -> p_additionals p = [] -> Forall (rr_plain_ok c) rs ->
  rr_ok c q -> rr_data q = DRRSIG r -> rs_sig r = sg ++ [o] -> N.of_nat (length (rrsig_to_bytes r)) <= 65535 ->
  exists bs p', packet_to_bytes c p = Ok bs /\ packet_try_from c bs = Ok p' /\ p_questions p' = p_questions p /\ p_answers p' = rs ++ [carrying q (DRRSIG (with_signature r sg))].
Proof.
  intros H Q S Ea En Ed R K D Sg B. destruct (signature_cut c q r sg o K D Sg B) as (w & Ew & Rw). 
  assert (G : exists bss, Forall2 (fun x b => rr_to_bytes c x = Ok b) rs bss /\ Forall2 (fun bs v => forall pre suf, reads pre suf (rr_try_from c) bs v) bss rs).
  { clear - R. induction R as [|r rs H F (bss & F1 & F2)]; [exists []; split; constructor|]. destruct (reads_rr c r H) as (b & E & X). exists (b :: bss). split; constructor; assumption. }
  destruct G as (bss & F1 & F2). set (ba := concat bss).
  set (p' := mkPacket (p_header (recount p)) (p_questions p) (rs ++ [carrying q (DRRSIG (with_signature r sg))]) [] []).
  exists (patched_header p ++ flat_map (question_to_bytes c) (p_questions p) ++ ba ++ w ++ [o]), p'.
  assert (Z : exists n, packet_byte_size c p = Ok n).
  { apply packet_size_total. unfold records_of. rewrite Ea, En, Ed, app_nil_r. apply Forall_app. split; [apply plain_typed, R|]. repeat constructor. apply K. apply K. }
  split; [|split; [|split; reflexivity]].
  - destruct Z as [n Z]. unfold packet_to_bytes. rewrite Z, Ea, En, Ed. cbn [rbind].
    assert (Y : concat_res (rr_to_bytes c) (rs ++ [q]) = Ok (ba ++ w ++ [o])). { apply concat_res_ok. exists (bss ++ [w ++ [o]]). split; [apply Forall2_app; [exact F1|repeat constructor; exact Ew]|]. rewrite concat_app. cbn [concat]. rewrite app_nil_r. reflexivity. }
    rewrite Y. cbn [rbind concat_res]. rewrite !app_nil_r. reflexivity.
  - assert (X : reads [] [o] (packet_try_from_buf c) (patched_header p ++ flat_map (question_to_bytes c) (p_questions p) ++ (ba ++ w) ++ [] ++ []) p').
    { unfold p'. rewrite patched_header_eq, <- (lens16_recount p S). unfold packet_try_from_buf. eapply reads_bind; [apply reads_header, lens16_typed, H|].
      rewrite (lens16_recount p S). cbn [recount p_header id hflags ques_count ans_count auth_count add_count]. rewrite !Nnat.Nat2N.id, Ea, En, Ed. cbn [length].
      eapply reads_bind; [apply reads_questions, Q|]. eapply reads_bind; [|eapply reads_bind; [apply reads_ret|apply reads_bind_ret, reads_ret]].
      replace (ba ++ w) with (concat (bss ++ [w])) by (rewrite concat_app; cbn [concat]; rewrite app_nil_r; reflexivity). replace (length (rs ++ [q])) with (length (rs ++ [carrying q (DRRSIG (with_signature r sg))])) by (rewrite !app_length; reflexivity). apply reads_repeat. apply Forall2_app; [exact F2|]. repeat constructor. exact Rw. }
    Transparent reads. unfold reads in X. Opaque reads. cbn [app length] in X. unfold packet_try_from, buf_from. rewrite !app_nil_r, <- !app_assoc in X. rewrite X. reflexivity.
Qed.
