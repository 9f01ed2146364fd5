(** * C77: serialising has no effect besides its result. *)
From Verif Require Import Base Buffer Fqdn Header Types RDataBasic Bitmap Svcb RDataSec RData Packet Print PropName PropRecord PropPacket PropWire.

(** ** Specification: the algorithm names of the TSIG records of a packet, in the order of the message. *)
Definition tsig_names (rs : list rr) : list bytes :=
  flat_map (fun r => match rr_data r with DTSIG x => [fqdn_to_bytes (ts_alg x)] | _ => [] end) rs.
Definition packet_records (p : packet) : list rr := p_answers p ++ p_authorities p ++ p_additionals p.
Definition without_tsig (p : packet) : Prop := forall r x, In r (packet_records p) -> rr_data r <> DTSIG x.

(** ** Facts *)
(** [m] with standard output open: result [r], and lines [l] if it succeeds. *)
Definition prints {A} (m : W A) (l : list bytes) (r : res A) : Prop :=
  snd (m true) = r /\ (forall a, r = Ok a -> fst (m true) = l) /\ (l = [] -> m false = m true /\ fst (m true) = []).
Lemma prints_pure {A} (r : res A) : prints (wpure r) [] r.
Proof. repeat split; reflexivity. Qed.
Lemma prints_bind {A B} (m : W A) (k : A -> W B) l1 l2 r (f : A -> res B) : prints m l1 r -> (forall a, r = Ok a -> prints (k a) l2 (f a)) ->
  prints (wbind m k) (l1 ++ l2) (rbind r f).
Proof.
  intros (E1 & L1 & N1) K. unfold wbind. destruct (m true) as [lm rm] eqn:Em. cbn [fst snd] in *. subst rm.
  destruct r as [a|e| |].
  - pose proof (L1 a eq_refl) as Q. subst lm. destruct (K a eq_refl) as (E2 & L2 & N2). unfold prints. rewrite Em.
    destruct (k a true) as [lk rk] eqn:Ek. cbn [fst snd rbind] in *. subst rk. split; [reflexivity|]. split.
    + intros b Eb. rewrite (L2 b Eb). reflexivity.
    + intros Z. apply app_eq_nil in Z. destruct Z as [-> ->]. destruct (N1 eq_refl) as [F1 _]. destruct (N2 eq_refl) as [F2 F3]. rewrite F1, F2.
      split; [reflexivity|]. rewrite F3. reflexivity.
  - unfold prints. rewrite Em. cbn [fst snd rbind]. split; [reflexivity|]. split; [discriminate|]. intros Z. apply app_eq_nil in Z. destruct Z as [-> ->].
    destruct (N1 eq_refl) as [F1 F2]. rewrite F1. split; [reflexivity|exact F2].
  - unfold prints. rewrite Em. cbn [fst snd rbind]. split; [reflexivity|]. split; [discriminate|]. intros Z. apply app_eq_nil in Z. destruct Z as [-> ->].
    destruct (N1 eq_refl) as [F1 F2]. rewrite F1. split; [reflexivity|exact F2].
  - unfold prints. rewrite Em. cbn [fst snd rbind]. split; [reflexivity|]. split; [discriminate|]. intros Z. apply app_eq_nil in Z. destruct Z as [-> ->].
    destruct (N1 eq_refl) as [F1 F2]. rewrite F1. split; [reflexivity|exact F2].
Qed.
Lemma prints_eq {A} (m : W A) l l' r r' : prints m l r -> l = l' -> r = r' -> prints m l' r'.
Proof. intros H -> ->. exact H. Qed.

Definition data_lines (d : rdata) : list bytes := match d with DTSIG x => [fqdn_to_bytes (ts_alg x)] | _ => [] end.
Lemma prints_data c d : prints (rdata_to_bytes_w c d) (data_lines d) (rdata_to_bytes c d).
Proof. destruct d; try exact (prints_pure _). split; [reflexivity|]. split; [reflexivity|discriminate]. Qed.
Lemma prints_data_c c h d m off : prints (rdata_to_bytes_compressed_w c h d m off) (data_lines d) (rdata_to_bytes_compressed c h d m off).
Proof. destruct d; try exact (prints_pure _). split; [reflexivity|]. split; [reflexivity|discriminate]. Qed.
Lemma prints_rr c r : prints (rr_to_bytes_w c r) (data_lines (rr_data r)) (rr_to_bytes c r).
Proof.
  unfold rr_to_bytes_w, rr_to_bytes. eapply prints_eq.
  - eapply prints_bind; [apply prints_pure|intros u _]. eapply prints_bind; [apply prints_pure|intros n _].
    eapply prints_bind; [apply prints_data|intros d _]. apply prints_pure.
  - cbn [app]. apply app_nil_r.
  - reflexivity.
Qed.
Lemma prints_rr_c c h r m off : prints (rr_to_bytes_compressed_w c h r m off) (data_lines (rr_data r)) (rr_to_bytes_compressed c h r m off).
Proof.
  unfold rr_to_bytes_compressed_w, rr_to_bytes_compressed. destruct (fqdn_to_bytes_compressed h (rr_name r) m off) as [nb m1]. eapply prints_eq.
  - eapply prints_bind; [apply prints_data_c|intros dm _]. apply prints_pure.
  - apply app_nil_r.
  - reflexivity.
Qed.
Lemma prints_concat c rs : prints (concat_w (rr_to_bytes_w c) rs) (tsig_names rs) (concat_res (rr_to_bytes c) rs).
Proof.
  induction rs as [|r rs IH]; [exact (prints_pure _)|]. cbn [concat_w concat_res]. eapply prints_eq.
  - eapply prints_bind; [apply prints_rr|intros b _]. eapply prints_bind; [apply IH|intros x _]. apply prints_pure.
  - rewrite app_nil_r. reflexivity.
  - reflexivity.
Qed.
Lemma prints_records c h rs : forall bin m, prints (records_compressed_w c h rs bin m) (tsig_names rs) (records_compressed c h rs bin m).
Proof.
  induction rs as [|r rs IH]; intros bin m; [exact (prints_pure _)|]. cbn [records_compressed_w records_compressed].
  change (tsig_names (r :: rs)) with (data_lines (rr_data r) ++ tsig_names rs). eapply prints_bind; [apply prints_rr_c|intros bm _]. apply IH.
Qed.
Lemma tsig_names_app a b : tsig_names (a ++ b) = tsig_names a ++ tsig_names b.
Proof. apply flat_map_app. Qed.
Lemma prints_packet c p : prints (packet_to_bytes_w c p) (tsig_names (packet_records p)) (packet_to_bytes c p).
Proof.
  unfold packet_to_bytes_w, packet_to_bytes. eapply prints_eq.
  - eapply prints_bind; [apply prints_pure|intros u _]. eapply prints_bind; [apply prints_concat|intros a _].
    eapply prints_bind; [apply prints_concat|intros n _]. eapply prints_bind; [apply prints_concat|intros d _]. apply prints_pure.
  - unfold packet_records. rewrite !tsig_names_app, app_nil_r. reflexivity.
  - reflexivity.
Qed.
Lemma prints_packet_c c h p : prints (packet_to_bytes_compressed_w c h p) (tsig_names (packet_records p)) (packet_to_bytes_compressed c h p).
Proof.
  unfold packet_to_bytes_compressed_w, packet_to_bytes_compressed.
  destruct (questions_compressed c h (p_questions p) (header_to_bytes (p_header p)) []) as [b0 m0]. eapply prints_eq.
  - eapply prints_bind; [apply prints_records|intros s1 _]. eapply prints_bind; [apply prints_records|intros s2 _].
    eapply prints_bind; [apply prints_records|intros s3 _]. apply prints_pure.
  - unfold packet_records. rewrite !tsig_names_app, app_nil_r. reflexivity.
  - reflexivity.
Qed.
Lemma without_names p : without_tsig p -> tsig_names (packet_records p) = [].
Proof.
  unfold without_tsig. generalize (packet_records p). intros l H. induction l as [|r l IH]; [reflexivity|].
  unfold tsig_names. cbn [flat_map]. fold (tsig_names l). rewrite IH by (intros r' x I; exact (H r' x (or_intror I))).
  destruct (rr_data r) eqn:E; try reflexivity. destruct (H r _ (or_introl eq_refl) E).
Qed.

(** ** C77 *)
Definition ex_tsig_rr : rr := mkRR [[107]] TSIG false (UdpPayloadSize 255) 0 (DTSIG (mkTsig [[104; 109; 97; 99]] 1 300 [1; 2] 7 TsNone [])).
Definition ex_tsig_packet : packet := mkPacket (header_new_query 7 false) [] [] [] [ex_tsig_rr].
(** A packet with a TSIG record prints a line on standard output, and panics where that cannot be written to. *)
Theorem C77_print_refuted : forall (c : cfg) (h : hasher), exists (p : packet) (b b' : bytes),
  packet_to_bytes_w c p true = ([[4; 104; 109; 97; 99; 0]], Ok b) /\ packet_to_bytes_compressed_w c h p true = ([[4; 104; 109; 97; 99; 0]], Ok b').
Proof. intros [[] [] []] h; exists ex_tsig_packet; eexists; eexists; split; vm_compute; reflexivity. Qed.
Theorem C77_closed_refuted : forall (c : cfg) (h : hasher), exists (p : packet) (b b' : bytes),
  packet_to_bytes c p = Ok b /\ packet_to_bytes_compressed c h p = Ok b' /\ packet_to_bytes_w c p false = ([], Panic) /\ packet_to_bytes_compressed_w c h p false = ([], Panic).
Proof. intros [[] [] []] h; exists ex_tsig_packet; eexists; eexists; repeat split; vm_compute; reflexivity. Qed.
(** Without TSIG records nothing is printed, and the result is that of the writers used everywhere else, whether or not
    standard output can be written to. *)
Theorem C77_silent_partial : forall (c : cfg) (h : hasher) (o : bool) (p : packet), without_tsig p ->
  packet_to_bytes_w c p o = ([], packet_to_bytes c p) /\ packet_to_bytes_compressed_w c h p o = ([], packet_to_bytes_compressed c h p).
Proof.
  intros c h o p H. apply without_names in H.
  assert (K : forall (m : W bytes) r, prints m (tsig_names (packet_records p)) r -> m o = ([], r)).
  { intros m r (E & _ & N). destruct (N H) as [F1 F2]. assert (m o = m true) as -> by (destruct o; [reflexivity|exact F1]).
    rewrite <- E, <- F2. apply surjective_pairing. }
  split; apply K; [apply prints_packet|apply prints_packet_c].
Qed.
(** With it: the same result, and exactly one line for each TSIG record. *)
Theorem C77_lines_partial : forall (c : cfg) (h : hasher) (p : packet),
  snd (packet_to_bytes_w c p true) = packet_to_bytes c p /\ snd (packet_to_bytes_compressed_w c h p true) = packet_to_bytes_compressed c h p /\
  (forall b, packet_to_bytes c p = Ok b -> fst (packet_to_bytes_w c p true) = tsig_names (packet_records p)) /\
  (forall b, packet_to_bytes_compressed c h p = Ok b -> fst (packet_to_bytes_compressed_w c h p true) = tsig_names (packet_records p)).
Proof.
  intros c h p. destruct (prints_packet c p) as (E1 & L1 & _), (prints_packet_c c h p) as (E2 & L2 & _). auto.
Qed.
Example C77_ex : without_tsig ex_packet /\ packet_records ex_packet <> [] /\ ~ without_tsig ex_tsig_packet.
Proof.
  split; [|split; [vm_compute; discriminate|]].
  - intros r x I. vm_compute in I. repeat (destruct I as [<-|I]; [vm_compute; discriminate|]). destruct I.
  - intros H. exact (H ex_tsig_rr _ (or_introl eq_refl) eq_refl).
Qed.
Print Assumptions C77_print_refuted.
Print Assumptions C77_closed_refuted.
Print Assumptions C77_silent_partial.
Print Assumptions C77_lines_partial.
