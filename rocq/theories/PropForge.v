(** * C81: a text used as a name cannot forge the rest of a message. *)
From Coq Require Import Lia ZifyNat ZifyN.
From Verif Require Import Base Buffer Fqdn Header Types RDataBasic Bitmap Svcb RDataSec RData Packet BaseFacts BufferFacts NameSpec FqdnFacts NameProps CodeSpec RDataSpec RecordSpec PacketFacts ExactFacts SvcbParse PropName PropRecord PropPacket PropShift.

Lemma ok_inj {X} (x y : X) : Ok x = Ok y -> x = y.
Proof. intros [= H]. exact H. Qed.
Lemma no_dots l : Forall (fun x => x <> 46) l -> ~ In 46 l.
Proof. intros F I. exact (proj1 (Forall_forall _ _) F 46 I eq_refl). Qed.
Lemma one_piece l : l <> [] -> Forall (fun x => x <> 46) l -> fqdn_new l = [l].
Proof.
  intros E F. pose proof (fqdn_new_pieces [l]) as H. cbn [flat_map] in H. rewrite app_nil_r in H. rewrite H; [|constructor; [apply no_dots, F|constructor]].
  cbn [filter]. destruct l; [congruence|reflexivity].
Qed.
Definition stuffed (forged : bytes) : bytes := forged ++ repeat 0 (256 - length forged).
Lemma stuffed_name forged : Forall (fun x => x < 128 /\ x <> 46) forged -> (length forged <= 256)%nat ->
  Forall (fun x => x < 128) (stuffed forged) /\ fqdn_to_bytes (fqdn_new (stuffed forged)) = 0 :: stuffed forged ++ [0].
Proof.
  intros F L. assert (Z : length (stuffed forged) = 256%nat) by (unfold stuffed; rewrite app_length, repeat_length; lia).
  assert (R : Forall (fun x => x < 128 /\ x <> 46) (stuffed forged)).
  { apply Forall_app. split; [exact F|]. apply Forall_forall. intros x I. apply repeat_spec in I. subst. lia. }
  split; [eapply Forall_impl; [|exact R]; cbv beta; tauto|]. rewrite one_piece.
  - unfold fqdn_to_bytes. cbn [fold_left]. rewrite Z. destruct (stuffed forged) as [|x l]; [discriminate|]. reflexivity.
  - destruct (stuffed forged); [discriminate|congruence].
  - eapply Forall_impl; [|exact R]. cbv beta. tauto.
Qed.
(** One label of 256 octets: its length is written as 0, which ends the name, and the label itself is what follows in the
    message.  So a text without dots can put any octets there. *)
Theorem C81_anything_refuted : forall (c : cfg) (forged : bytes), Forall (fun x => x < 128 /\ x <> 46) forged -> (length forged <= 256)%nat ->
  exists text : bytes, Forall (fun x => x < 128) text /\
  forall (p : packet) (q : question) (qs : list question) (bs : bytes), p_questions p = q :: qs -> q_name q = fqdn_new text -> packet_to_bytes c p = Ok bs ->
  exists rest, bs = firstn 12 bs ++ [0] ++ forged ++ rest.
Proof.
  intros c forged F L. exists (stuffed forged). destruct (stuffed_name forged F L) as [A E]. split; [exact A|]. intros p q qs bs Q K W.
  unfold packet_to_bytes in W. destruct (packet_byte_size c p) as [z| | |]; try discriminate. destruct (concat_res _ (p_answers p)) as [a| | |]; try discriminate.
  destruct (concat_res _ (p_authorities p)) as [n| | |]; try discriminate. destruct (concat_res _ (p_additionals p)) as [d| | |]; try discriminate.
  cbn [rbind] in W. apply ok_inj in W. subst bs. rewrite Q. cbn [flat_map].
  assert (QB : exists x, question_to_bytes c q = [0] ++ forged ++ x).
  { unfold question_to_bytes. rewrite K, E. unfold stuffed. cbn [app]. rewrite <- !app_assoc. eexists. reflexivity. }
  destruct QB as [x QB]. assert (H : length (patched_header p) = 12%nat) by reflexivity.
  rewrite firstn_app, H, firstn_all2 by lia. cbn [firstn Nat.sub]. rewrite app_nil_r, QB. rewrite <- !app_assoc. eexists. reflexivity.
Qed.
(** For instance the answer.  Whatever record [r] is put into this packet, what is read is the record of the attacker. *)
Definition forged_part : bytes := [0; 1; 0; 1] ++ [1; 98; 0; 0; 1; 0; 1; 0; 0; 0; 60; 0; 4; 6; 6; 6; 6].
Definition forged_name : bytes := stuffed forged_part.
Definition answer_to (f : fqdn) (t : qtype) (k : qclass) (r : rr) : packet :=
  mkPacket (mkheader 1 (hflags (header_new_reply 0 StandardQuery)) 1 1 0 0) [question_new f t k] [r] [] [].
Theorem C81_answer_refuted : forall (c : cfg) (t : qtype) (k : qclass) (r : rr) (bs : bytes),
  packet_to_bytes c (answer_to (fqdn_new forged_name) t k r) = Ok bs ->
  packet_try_from c bs = Ok (answer_to [] (QT A) QIN (mkRR [[98]] A false CIN 60 (DA 101058054))).
Proof.
  intros c t k r bs W. set (F := answer_to [] (QT A) QIN (mkRR [[98]] A false CIN 60 (DA 101058054))).
  assert (P : packet_plain_ok c F).
  { split; [repeat split|]. split.
    - constructor; [|constructor]. split; [constructor|]. split; [|reflexivity]. split; [apply basic_exists; reflexivity|split; discriminate].
    - constructor; [|constructor]. split; [split|].
      + repeat split; try discriminate; try reflexivity; try (apply basic_exists; reflexivity). constructor; [split; cbn; lia|constructor].
      + split; [split; [exact (basic_exists c A eq_refl)|reflexivity]|exact I].
      + split; [exact I|]. intros b E. injection E as <-. vm_compute. discriminate. }
  destruct (packet_roundtrip c F P) as (fb & E & R); [repeat split; discriminate|].
  assert (EF : fb = patched_header F ++ 0 :: forged_part).
  { destruct c as [[] [] []]; vm_compute in E; injection E as <-; vm_compute; reflexivity. }
  unfold packet_to_bytes in W. destruct (packet_byte_size c _) as [z| | |]; try discriminate. unfold answer_to in W. cbn [p_answers p_authorities p_additionals concat_res] in W.
  destruct (rr_to_bytes c r) as [rb| | |]; try discriminate. cbn [rbind p_questions flat_map] in W. apply ok_inj in W. subst bs.
  unfold question_to_bytes, question_new. cbn [q_name]. unfold forged_name. destruct (stuffed_name forged_part) as [_ ->]; [repeat constructor; discriminate|cbn; lia|].
  unfold stuffed. change (patched_header _) with (patched_header F). cbn [app]. rewrite <- !app_assoc.
  specialize (R (repeat 0 (256 - length forged_part) ++ [0] ++ be 2 (qtype_code (q_type (mkQ (fqdn_new (forged_part ++ repeat 0 (256 - length forged_part))) t k false))) ++
    be 2 (question_class_field c (mkQ (fqdn_new (forged_part ++ repeat 0 (256 - length forged_part))) t k false)) ++ rb)).
  rewrite EF, <- app_assoc in R. cbn [app] in R. rewrite app_nil_r in *. exact R.
Qed.
(** The same with data of 65536 octets in a NULL record: its length is written as 0, and the data are the next record. *)
Definition forged_rr : bytes := [1; 98; 0; 0; 1; 0; 1; 0; 0; 0; 60; 0; 4; 6; 6; 6; 6].
Definition forged_data : bytes := forged_rr ++ repeat 0 (N.to_nat 65519).
Definition two_answers (x : bytes) (r : rr) : packet :=
  mkPacket (mkheader 1 (hflags (header_new_reply 0 StandardQuery)) 0 2 0 0) [] [mkRR [[97]] NULL false CIN 60 (DNULL x); r] [] [].
Lemma data_forged (c : cfg) (pad : bytes) (r : rr) (bs : bytes) : N.of_nat (length pad) = 65519 -> packet_to_bytes c (two_answers (forged_rr ++ pad) r) = Ok bs ->
  packet_try_from c bs = Ok (two_answers [] (mkRR [[98]] A false CIN 60 (DA 101058054))).
Proof.
  intros Lp W. set (F := two_answers [] (mkRR [[98]] A false CIN 60 (DA 101058054))).
  assert (P : packet_plain_ok c F).
  { split; [repeat split|]. split; [constructor|]. constructor; [|constructor; [|constructor]].
    - split; [split; [|split; [split; [exact (basic_exists c NULL eq_refl)|exact I]|exact I]]|split; [exact I|intros b E; injection E as <-; vm_compute; discriminate]].
      repeat split; try discriminate; try reflexivity; try (apply basic_exists; reflexivity). constructor; [split; cbn; lia|constructor].
    - split; [split; [|split; [split; [exact (basic_exists c A eq_refl)|reflexivity]|exact I]]|split; [exact I|intros b E; injection E as <-; vm_compute; discriminate]].
      repeat split; try discriminate; try reflexivity; try (apply basic_exists; reflexivity). constructor; [split; cbn; lia|constructor]. }
  destruct (packet_roundtrip c F P) as (fb & E & R); [repeat split; discriminate|].
  assert (L : len16 (length (forged_rr ++ pad)) = 0) by (unfold len16; rewrite app_length, Nat2N.inj_add, Lp; reflexivity).
  unfold packet_to_bytes in W. destruct (packet_byte_size c _) as [z| | |]; try discriminate. unfold two_answers in W. cbn [p_answers p_authorities p_additionals concat_res] in W.
  unfold rr_to_bytes at 1 in W. unfold rr_byte_size at 1 in W. cbn [rr_data rdata_byte_size rdata_to_bytes rbind rr_name rr_type rr_class rr_ttl] in W. unfold opaque_byte_size, opaque_to_bytes in W. rewrite L in W.
  destruct (rr_to_bytes c r) as [rb| | |]; try discriminate. cbn [rbind p_questions flat_map] in W. apply ok_inj in W. subst bs.
  unfold forged_rr. change (patched_header _) with (patched_header F). change ([] ++ ?l) with l. rewrite !app_nil_r, <- !app_assoc.
  specialize (R (pad ++ rb)). change (Ok F) with (Ok (recount F)). rewrite <- R. f_equal.
  assert (EF : fb = patched_header F ++ [1; 97; 0; 0; 10] ++ be 2 (rr_class_field c (mkRR [[97]] NULL false CIN 60 (DNULL []))) ++ [0; 0; 0; 60; 0; 0] ++ [1; 98; 0; 0; 1; 0; 1; 0; 0; 0; 60; 0; 4; 6; 6; 6; 6]).
  { destruct c as [[] [] []]; vm_compute in E; injection E as <-; vm_compute; reflexivity. }
  rewrite EF. rewrite <- !app_assoc. reflexivity.
Qed.
Theorem C81_data_refuted : forall (c : cfg) (r : rr) (bs : bytes), packet_to_bytes c (two_answers forged_data r) = Ok bs ->
  packet_try_from c bs = Ok (two_answers [] (mkRR [[98]] A false CIN 60 (DA 101058054))).
Proof. intros c r bs. apply data_forged. rewrite repeat_length. apply N2Nat.id. Qed.
(** ** Texts with at most 191 octets between their dots are harmless *)
Definition joined (ls : list bytes) : bytes := match ls with [] => [] | l :: r => l ++ flat_map (fun x => 46 :: x) r end.
Lemma joined_ok ls : Forall (fun l => ~ In 46 l) ls -> (fqdn_ok (fqdn_new (joined ls)) <-> Forall (fun l : bytes => (length l <= 191)%nat) ls).
Proof.
  intros F. unfold joined. rewrite fqdn_new_pieces by exact F. unfold fqdn_ok, label_ok. rewrite !Forall_forall. split; intros H l I.
  - destruct l as [|x l]; [cbn; lia|]. apply H. apply filter_In. split; [exact I|reflexivity].
  - apply filter_In in I. destruct I as [I N0]. split; [|apply H, I]. destruct l; [discriminate|cbn; lia].
Qed.
(** The packet with its first question about the root is well-formed; with the text instead it reads back unchanged. *)
Theorem C81_short_partial : forall (c : cfg) (pieces : list bytes) (h : header) (t : qtype) (k : qclass) (u : bool) (qs : list question) (an au ad : list rr),
  Forall (fun l => ~ In 46 l /\ (length l <= 191)%nat) pieces ->
  packet_plain_ok c (mkPacket h (mkQ [] t k u :: qs) an au ad) -> counts_of (mkPacket h (mkQ [] t k u :: qs) an au ad) = true_counts (mkPacket h (mkQ [] t k u :: qs) an au ad) ->
  let p := mkPacket h (mkQ (fqdn_new (joined pieces)) t k u :: qs) an au ad in
  exists bs, packet_to_bytes c p = Ok bs /\ forall suf, packet_try_from c (bs ++ suf) = Ok p.
Proof.
  intros c pieces h t k u qs an au ad F (H & Q & R) K p. assert (P : packet_plain_ok c p).
  { split; [exact H|]. split; [|exact R]. cbn [p p_questions] in *. inversion Q as [|q l [Q1 Q2] Q3]. subst. constructor; [|exact Q3]. split; [|exact Q2]. cbn [q_name].
    apply joined_ok; (eapply Forall_impl; [|exact F]); cbv beta; tauto. }
  assert (Kp : counts_of p = true_counts p) by exact K.
  destruct (packet_roundtrip c p P) as (bs & E & G); [apply counts_small; [exact H|exact Kp]|]. rewrite recount_same in G by exact Kp. exists bs. split; assumption.
Qed.
(** A question about a text reads back exactly if no more than 191 octets stand between dots. *)
Theorem C81_exact_partial : forall (c : cfg) (pieces : list bytes) (t : qtype) (k : qclass) (u : bool) (pre suf : bytes),
  Forall (fun l => ~ In 46 l) pieces -> qdecodable c t -> (mdns c = false -> u = false) ->
  let q := mkQ (fqdn_new (joined pieces)) t k u in
  byte_list (pre ++ question_to_bytes c q ++ suf) ->
  (fst (question_try_from c (mkbuf (pre ++ question_to_bytes c q ++ suf) (length pre))) = Ok q <-> Forall (fun l : bytes => (length l <= 191)%nat) pieces).
Proof.
  intros c pieces t k u pre suf F T M q B. rewrite question_exact by exact B. rewrite <- (joined_ok pieces F). unfold question_ok, q. cbn [q_name q_type q_unicast]. tauto.
Qed.
(** Data of a record whose length the two octets in front of it can express read back, and no other: the data of a NULL record, which is any octets. *)
Theorem C81_data_exact_partial : forall (c : cfg) (r : rr) (x bs : bytes), rr_head_ok c r -> rr_data r = DNULL x ->
  rr_to_bytes c r = Ok bs -> byte_list bs -> allocatable bs ->
  ((forall pre suf, rr_try_from c (mkbuf (pre ++ bs ++ suf) (length pre)) = (Ok r, mkbuf (pre ++ bs ++ suf) (length pre + length bs))) <-> N.of_nat (length x) <= 65535).
Proof.
  intros c r x bs H D W Bb Al. assert (T : rdata_typed c (rr_data r)) by (rewrite D; split; [exact (basic_exists c NULL eq_refl)|exact I]).
  pose proof (record_exact c r bs T W Bb Al) as X. Transparent reads. unfold reads in X. Opaque reads. rewrite X. unfold rr_plain_ok, rr_ok. rewrite D. cbn [rdata_to_bytes]. split.
  - intros (_ & _ & L). apply L. reflexivity.
  - intros L. split; [split; [exact H|split; [rewrite D in T; exact T|exact I]]|]. split; [exact I|]. intros b [= <-]. exact L.
Qed.
Example C81_ex : joined [[119; 119; 119]; [97]] = [119; 119; 119; 46; 97] /\ Forall (fun l => ~ In 46 l /\ (length l <= 191)%nat) [[119; 119; 119]; [97]] /\
  packet_plain_ok ex_cfg (answer_to [] (QT A) QIN (mkRR ex_ftp A false CIN 60 (DA 16909060))) /\
  Forall (fun x => x < 128) forged_name /\ exists bs, packet_to_bytes ex_cfg (answer_to (fqdn_new forged_name) (QT A) QIN (mkRR ex_ftp A false CIN 60 (DA 16909060))) = Ok bs.
Proof.
  split; [reflexivity|]. split; [repeat constructor; cbn; try lia; intuition discriminate|]. split.
  - split; [repeat split|]. split; [constructor; [|constructor]; split; [constructor|split; [split; [reflexivity|split; discriminate]|reflexivity]]|].
    constructor; [|constructor]. split; [split; [|split; [split; reflexivity|exact I]]|split; [exact I|intros b E; injection E as <-; vm_compute; discriminate]].
    repeat split; try discriminate; try reflexivity; unfold fqdn_ok, label_ok; repeat constructor; cbn; lia.
  - split; [apply stuffed_name; [repeat constructor; discriminate|cbn; lia]|]. eexists. vm_compute. reflexivity.
Qed.
Example C81_ex_null : let r := mkRR ex_ftp NULL false CIN 60 (DNULL [1; 2; 3]) in
  rr_head_ok ex_cfg r /\ exists bs, rr_to_bytes ex_cfg r = Ok bs /\ byte_list bs /\ allocatable bs.
Proof.
  split; [repeat split; try discriminate; try reflexivity; unfold fqdn_ok, label_ok; repeat constructor; cbn; lia|].
  eexists. split; [vm_compute; reflexivity|]. split; [repeat constructor|vm_compute; discriminate].
Qed.
Example C81_ex_data : exists bs, packet_to_bytes ex_cfg (two_answers forged_data (mkRR ex_ftp A false CIN 60 (DA 16909060))) = Ok bs.
Proof.
  apply (C49_release ex_cfg ex_hash); [reflexivity|]. constructor; [split; [reflexivity|exact I]|]. constructor; [split; reflexivity|constructor].
Qed.
Print Assumptions C81_anything_refuted.
Print Assumptions C81_answer_refuted.
Print Assumptions C81_data_refuted.
Print Assumptions C81_short_partial.
Print Assumptions C81_exact_partial.
Print Assumptions C81_data_exact_partial.
