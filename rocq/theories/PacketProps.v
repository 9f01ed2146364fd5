(** * Lemmas behind the properties of packets: API histories, sizes, counts, panics, parsed packets. *)
From Verif Require Import Base Utf8 Buffer Fqdn Header Types RDataBasic Bitmap Svcb RDataSec RData Packet BaseFacts BufferFacts
  NameSpec FqdnLoop FqdnFacts BitmapFacts CompressSpec ChunkFacts CodeSpec CodeFacts HeaderSpec HeaderFacts RDataSpec RDataReads SvcbFacts
  RDataFacts RecordSpec RecordFacts ParseFacts WireSpec WireFacts SvcbParse RecordProps ApiSpec PacketFacts.
From Coq Require Import Lia ZifyBool ZifyNat ZifyN.
Ltac Zify.zify_post_hook ::= Z.div_mod_to_equations.

(** ** API histories *)
Lemma run_meaning c k p p' : run c k p = Ok p' -> same_sections (sections_of p') (meaning k (sections_of p)).
Proof.
  destruct k as [q|qs| |s r|s rs|s|i|s|h|qs]; cbn [run].
  1: { unfold add_question. intros E. apply rbind_ok in E. destruct E as (n & _ & E). apply Ok_inj in E. subst p'. split; [reflexivity|intros []; reflexivity]. }
  3: { destruct s; unfold add_answer, add_authority, add_additional; intros E; apply rbind_ok in E; destruct E as (n & _ & E);
         apply Ok_inj in E; subst p'; (split; [reflexivity|intros []; reflexivity]). }
  all: try destruct s; intros E; apply Ok_inj in E; subst p'; (split; [reflexivity|intros []; reflexivity]).
Qed.
Lemma meaning_same k a b : same_sections a b -> same_sections (meaning k a) (meaning k b).
Proof.
  destruct a as [qa fa], b as [qb fb]. intros [E F]. cbn [fst snd] in E, F. subst qb.
  destruct k as [q|qs| |s r|s rs|s|i|s|h|qs]; cbn [meaning]; (split; [reflexivity|]); cbn [fst snd]; try exact F;
    intros s'; unfold update; destruct (same_section s s'); rewrite ?F; reflexivity.
Qed.
Lemma same_sections_trans a b d : same_sections a b -> same_sections b d -> same_sections a d.
Proof. intros [E1 F1] [E2 F2]. split; [congruence|]. intros s. rewrite F1. apply F2. Qed.
Lemma fold_meaning_same ks a b : same_sections a b ->
  same_sections (fold_left (fun st k => meaning k st) ks a) (fold_left (fun st k => meaning k st) ks b).
Proof. revert a b. induction ks as [|k ks IH]; intros a b H; cbn [fold_left]; [exact H|]. apply IH, meaning_same, H. Qed.
Lemma history_meaning c ks p p' : history c ks p = Ok p' ->
  same_sections (sections_of p') (fold_left (fun st k => meaning k st) ks (sections_of p)).
Proof.
  revert p. induction ks as [|k ks IH]; intros p E; cbn [history fold_left] in *.
  - apply Ok_inj in E. subst. split; reflexivity.
  - apply rbind_ok in E. destruct E as (p1 & E1 & E). eapply same_sections_trans; [apply IH, E|].
    apply fold_meaning_same, (run_meaning c), E1.
Qed.

Lemma counts_modulo_eq p : counts_modulo p <-> counts_of p = counts_of (lens16 p).
Proof. unfold counts_modulo, counts_of, true_counts, lens16, len16, u16. cbn [p_header ques_count ans_count auth_count add_count]. reflexivity. Qed.
Lemma uadd_len16 c n (x : N) : uadd c M16 (len16 n) 1 = Ok x -> x = len16 (n + 1).
Proof.
  unfold uadd, len16, u16, M16. intros E.
  destruct (N.ltb_spec (N.of_nat n mod 65536 + 1) 65536) as [L|L]; [|destruct (ovf c); [discriminate|]]; apply Ok_inj in E; lia.
Qed.
Lemma setter_counts s h : ques_count (call_setter s h) = ques_count h /\ ans_count (call_setter s h) = ans_count h /\
  auth_count (call_setter s h) = auth_count h /\ add_count (call_setter s h) = add_count h.
Proof.
  pose proof (view_setter s h) as V.
  assert (K : forall v, v_qd (apply_setter s v) = v_qd v /\ v_an (apply_setter s v) = v_an v /\
                        v_ns (apply_setter s v) = v_ns v /\ v_ar (apply_setter s v) = v_ar v).
  { intros []. destruct s as [b|b|b|o|[|]|r|b]; cbn; repeat split; destruct (is_noerror _); reflexivity. }
  specialize (K (view h)). rewrite <- V in K. exact K.
Qed.
Lemma run_counts c k p p' : keeps_counts k -> counts_modulo p -> run c k p = Ok p' -> counts_modulo p'.
Proof.
  rewrite !counts_modulo_eq. destruct p as [[i f q a n d] qs an au ad]. unfold counts_of, lens16.
  cbn [p_header p_questions p_answers p_authorities p_additionals id hflags ques_count ans_count auth_count add_count].
  intros K E. injection E as -> -> -> ->.
  destruct k as [q|qs'| |s r|s rs|s|j|s|h|qs']; cbn [keeps_counts] in K; try contradiction; cbn [run].
  1: { unfold add_question. intros E. apply rbind_ok in E. destruct E as (x & U & E). apply Ok_inj in E. subst p'.
       apply uadd_len16 in U. subst x. cbn. rewrite app_length. reflexivity. }
  3: { destruct s; unfold add_answer, add_authority, add_additional; intros E; apply rbind_ok in E; destruct E as (x & U & E);
       apply Ok_inj in E; subst p'; apply uadd_len16 in U; subst x; cbn; rewrite app_length; reflexivity. }
  all: try destruct s; try contradiction; intros E; apply Ok_inj in E; subst p'; try reflexivity.
  all: unfold packet_set_flag, with_header; cbn [p_header p_questions p_answers p_authorities p_additionals].
  all: match goal with |- context [call_setter ?s ?h] => destruct (setter_counts s h) as (-> & -> & -> & ->) end; reflexivity.
Qed.
Lemma create_counts o : starts_counted o -> counts_modulo (create o).
Proof. destruct o as [i [|]|i| |i [|] [|? ?]]; intros H; try contradiction; reflexivity. Qed.
Lemma history_counts c ks p p' : Forall keeps_counts ks -> counts_modulo p -> history c ks p = Ok p' -> counts_modulo p'.
Proof.
  intros K. revert p. induction K as [|k ks K1 K IH]; intros p H E; cbn [history] in E.
  - apply Ok_inj in E. subst. exact H.
  - apply rbind_ok in E. destruct E as (p1 & E1 & E). apply (IH p1); [|exact E]. apply (run_counts c k p); assumption.
Qed.

Lemma fits_same a b : same_sections a b -> fits_counts a -> fits_counts b.
Proof. intros [E F] [G H]. split; [rewrite <- E; exact G|]. intros s. rewrite <- F. apply H. Qed.
Lemma always_same ks a b : same_sections a b -> always_fits ks a -> always_fits ks b.
Proof.
  revert a b. induction ks as [|k ks IH]; intros a b E [F G]; (split; [apply (fits_same a b E F)|]); [exact I|].
  apply (IH (meaning k a)); [apply meaning_same, E|exact G].
Qed.
Lemma fits_small p : fits_counts (sections_of p) <-> small_sections p.
Proof.
  unfold fits_counts, small_sections, sections_of. cbn [fst snd]. split.
  - intros [A H]. split; [exact A|]. split; [apply (H Answers)|]. split; [apply (H Authorities)|apply (H Additionals)].
  - intros (A & B & C & D). split; [exact A|]. intros []; assumption.
Qed.
Lemma counted p : counts_modulo p -> small_sections p -> counts_of p = true_counts p.
Proof.
  unfold counts_modulo, true_counts. intros E (A & B & C & D). rewrite !N.mod_small in E by lia. exact E.
Qed.
Lemma uadd_fits c n : N.of_nat (n + 1) <= 65535 -> uadd c M16 (len16 n) 1 = Ok (len16 (n + 1)).
Proof.
  intros L. unfold uadd. rewrite !len16_id by lia. replace (N.of_nat n + 1 <? M16) with true by (unfold M16; lia).
  f_equal. lia.
Qed.
Lemma run_total c k p : counts_modulo p -> fits_counts (meaning k (sections_of p)) -> exists p', run c k p = Ok p'.
Proof.
  rewrite counts_modulo_eq. destruct p as [[i f q a n d] qs an au ad]. unfold counts_of, lens16.
  cbn [p_header p_questions p_answers p_authorities p_additionals id hflags ques_count ans_count auth_count add_count].
  intros E. injection E as -> -> -> ->.
  destruct k as [q|qs'| |s r|s rs|s|j|s|h|qs']; cbn [run]; intros [F1 F2].
  1: { cbn [fst meaning sections_of p_questions] in F1. rewrite app_length in F1. cbn [length] in F1.
       unfold add_question. cbn [p_header ques_count]. rewrite (uadd_fits c _ F1). eexists; reflexivity. }
  3: { specialize (F2 s). cbn [snd meaning sections_of] in F2. unfold update in F2.
       destruct s; cbn [same_section p_answers p_authorities p_additionals] in F2; rewrite app_length in F2; cbn [length] in F2;
         unfold add_answer, add_authority, add_additional; cbn [p_header ans_count auth_count add_count];
         rewrite (uadd_fits c _ F2); eexists; reflexivity. }
  all: try destruct s; eexists; reflexivity.
Qed.
Lemma history_total c ks p : Forall keeps_counts ks -> counts_modulo p -> always_fits ks (sections_of p) ->
  exists p', history c ks p = Ok p' /\ counts_of p' = true_counts p'.
Proof.
  intros K. revert p. induction K as [|k ks K1 K IH]; intros p H [F G].
  - exists p. split; [reflexivity|]. apply counted; [exact H|apply fits_small, F].
  - destruct (run_total c k p H) as [p1 E1]; [destruct ks; apply G|]. cbn [history]. rewrite E1. cbn [rbind].
    apply IH; [apply (run_counts c k p); assumption|].
    eapply always_same; [|exact G]. destruct (run_meaning c k p p1 E1) as [A B]. split; [symmetry; exact A|].
    intros s. symmetry. apply B.
Qed.

(** ** When writing succeeds *)
Lemma N_le_dec (a b : N) : {a <= b} + {~ a <= b}.
Proof. destruct (a <=? b) eqn:E; [left|right]; lia. Defined.

Lemma writable_dec c d : rdata_writable c d \/ ~ rdata_writable c d.
Proof.
  destruct d; try (left; exact I). cbn [rdata_writable].
  assert (D : forall p, {param_writable c p} + {~ param_writable c p}).
  { intros p. unfold param_writable. destruct (ovf c); [|left; left; reflexivity].
    destruct (N_le_dec 4 (N.of_nat (param_byte_size p) mod 65536)) as [Y|Y]; [left; right; exact Y|right; intros [?|?]; [discriminate|tauto]]. }
  destruct (Forall_dec _ D (sv_params x)); [left|right]; assumption.
Qed.
Lemma rr_plain_cases c r : rdata_typed c (rr_data r) ->
  (rdata_writable c (rr_data r) /\ exists bs, rr_to_bytes c r = Ok bs) \/
  (~ rdata_writable c (rr_data r) /\ rr_to_bytes c r = Panic).
Proof.
  intros T. destruct (writable_dec c (rr_data r)) as [W|W]; [left|right]; (split; [exact W|]).
  - destruct (rr_bytes_eq c r T W) as (n & db & _ & _ & E). eexists; exact E.
  - unfold rr_to_bytes, rr_byte_size. destruct (rdata_size_total c _ T) as [n ->]. cbn [rbind].
    rewrite (rdata_bytes_panic c _ T W). reflexivity.
Qed.
Lemma rdata_compressed_cases c h d m off : rdata_typed c d ->
  (rdata_writable c d /\ exists r, rdata_to_bytes_compressed c h d m off = Ok r) \/
  (~ rdata_writable c d /\ rdata_to_bytes_compressed c h d m off = Panic).
Proof.
  intros T. destruct (writable_dec c d) as [W|W]; [left|right]; (split; [exact W|]).
  - destruct (proj2 (rdata_bytes_iff c d T) W) as [bs E].
    destruct d; cbn [rdata_to_bytes_compressed]; try (eexists; reflexivity); try (rewrite E; eexists; reflexivity).
    unfold nsec_to_bytes_compressed. destruct (fqdn_to_bytes_compressed _ _ _ _) as [nb m'].
    cbn [rdata_to_bytes] in E. unfold nsec_to_bytes in E.
    apply rbind_ok in E. destruct E as (z & _ & E). apply rbind_ok in E. destruct E as (tb & E & _). rewrite E. eexists; reflexivity.
  - pose proof (rdata_bytes_panic c d T W) as E. destruct d; try (exfalso; apply W; exact I).
    cbn [rdata_to_bytes_compressed]. rewrite E. reflexivity.
Qed.
Lemma rr_compressed_cases c h r m off : rdata_typed c (rr_data r) ->
  (rdata_writable c (rr_data r) /\ exists x, rr_to_bytes_compressed c h r m off = Ok x) \/
  (~ rdata_writable c (rr_data r) /\ rr_to_bytes_compressed c h r m off = Panic).
Proof.
  intros T. unfold rr_to_bytes_compressed. destruct (fqdn_to_bytes_compressed _ _ _ _) as [nb m1].
  destruct (rdata_compressed_cases c h (rr_data r) m1 (off + length (nb ++ be 2 (rtype_code (rr_type r)) ++ be 2 (rr_class_field c r) ++ be 4 (rr_ttl r)) + 2) T)
    as [[W [x E]]|[W E]]; [left|right]; (split; [exact W|]); rewrite E; cbn [rbind]; [eexists|]; reflexivity.
Qed.
Lemma records_plain_cases c l : Forall (fun r => rdata_typed c (rr_data r)) l ->
  (Forall (fun r => rdata_writable c (rr_data r)) l /\ exists bs, concat_res (rr_to_bytes c) l = Ok bs) \/
  (~ Forall (fun r => rdata_writable c (rr_data r)) l /\ concat_res (rr_to_bytes c) l = Panic).
Proof.
  induction 1 as [|r l T F IH]; cbn [concat_res]; [left; split; [constructor|eexists; reflexivity]|].
  destruct (rr_plain_cases c r T) as [[W [b E]]|[W E]]; rewrite E; cbn [rbind].
  - destruct IH as [[WL [bs EL]]|[WL EL]]; rewrite EL; cbn [rbind]; [left|right]; rewrite Forall_cons_iff.
    + split; [tauto|eexists; reflexivity].
    + split; [tauto|reflexivity].
  - right. rewrite Forall_cons_iff. split; [tauto|reflexivity].
Qed.
Lemma records_compressed_cases c h l : Forall (fun r => rdata_typed c (rr_data r)) l -> forall w m,
  (Forall (fun r => rdata_writable c (rr_data r)) l /\ exists x, records_compressed c h l w m = Ok x) \/
  (~ Forall (fun r => rdata_writable c (rr_data r)) l /\ records_compressed c h l w m = Panic).
Proof.
  induction 1 as [|r l T F IH]; intros w m; cbn [records_compressed]; [left; split; [constructor|eexists; reflexivity]|].
  destruct (rr_compressed_cases c h r m (length w) T) as [[W [b E]]|[W E]]; rewrite E; cbn [rbind].
  - destruct (IH (w ++ fst b) (snd b)) as [[WL [bs EL]]|[WL EL]]; rewrite EL; [left|right]; rewrite Forall_cons_iff.
    + split; [tauto|eexists; reflexivity].
    + split; [tauto|reflexivity].
  - right. rewrite Forall_cons_iff. split; [tauto|reflexivity].
Qed.
Lemma packet_plain_cases c p : packet_typed c p ->
  (packet_writable c p /\ exists bs, packet_to_bytes c p = Ok bs) \/
  (~ packet_writable c p /\ packet_to_bytes c p = Panic).
Proof.
  intros T. destruct (packet_size_total c p T) as [n En]. unfold packet_to_bytes, packet_writable. rewrite En. cbn [rbind].
  apply records_forall in T. destruct T as (Ta & Tn & Td). unfold records_of. rewrite !Forall_app.
  destruct (records_plain_cases c _ Ta) as [[W1 [b1 E1]]|[W1 E1]]; rewrite E1; cbn [rbind]; [|right; tauto].
  destruct (records_plain_cases c _ Tn) as [[W2 [b2 E2]]|[W2 E2]]; rewrite E2; cbn [rbind]; [|right; tauto].
  destruct (records_plain_cases c _ Td) as [[W3 [b3 E3]]|[W3 E3]]; rewrite E3; cbn [rbind]; [|right; tauto].
  left. split; [tauto|eexists; reflexivity].
Qed.
Lemma packet_compressed_cases c h p : packet_typed c p ->
  (packet_writable c p /\ exists bs, packet_to_bytes_compressed c h p = Ok bs) \/
  (~ packet_writable c p /\ packet_to_bytes_compressed c h p = Panic).
Proof.
  intros T. unfold packet_to_bytes_compressed, packet_writable.
  apply records_forall in T. destruct T as (Ta & Tn & Td). unfold records_of. rewrite !Forall_app.
  destruct (questions_compressed _ _ _ _ _) as [w0 m0].
  destruct (records_compressed_cases c h _ Ta w0 m0) as [[W1 [[w1 m1] E1]]|[W1 E1]]; rewrite E1; cbn [rbind fst snd]; [|right; tauto].
  destruct (records_compressed_cases c h _ Tn w1 m1) as [[W2 [[w2 m2] E2]]|[W2 E2]]; rewrite E2; cbn [rbind fst snd]; [|right; tauto].
  destruct (records_compressed_cases c h _ Td w2 m2) as [[W3 [[w3 m3] E3]]|[W3 E3]]; rewrite E3; cbn [rbind fst snd]; [|right; tauto].
  left. split; [tauto|eexists; reflexivity].
Qed.
Lemma writable_release c p : ovf c = false -> packet_writable c p.
Proof.
  intros O. apply Forall_forall. intros r _. destruct (rr_data r); try exact I. apply Forall_forall. intros q _. left. exact O.
Qed.

(** ** Sizes *)
Definition records_error (l : list rr) : Z := fold_right (fun r z => (size_error (rr_data r) + z)%Z) 0%Z l.
Lemma rr_size c r bs : rdata_typed c (rr_data r) -> rr_to_bytes c r = Ok bs ->
  exists n, rr_byte_size c r = Ok n /\ (Z.of_nat n = Z.of_nat (length bs) + size_error (rr_data r))%Z.
Proof.
  intros T E. unfold rr_to_bytes in E. apply rbind_ok in E. destruct E as (n & En & E). exists n. split; [exact En|].
  apply rbind_ok in E. destruct E as (dn & Ed & E). apply rbind_ok in E. destruct E as (db & Eb & E). apply Ok_inj in E. subst bs.
  destruct (rdata_size c _ db T Eb) as (k & Ek & Z). assert (k = dn) by congruence. subst k.
  unfold rr_byte_size in En. rewrite Ed in En. apply Ok_inj in En. subst n.
  rewrite !app_length, !be_length, fqdn_byte_size_eq. lia.
Qed.
Lemma records_size c l bs : Forall (fun r => rdata_typed c (rr_data r)) l -> concat_res (rr_to_bytes c) l = Ok bs ->
  exists n, sum_res (rr_byte_size c) l = Ok n /\ (Z.of_nat n = Z.of_nat (length bs) + records_error l)%Z.
Proof.
  intros F. revert bs. induction F as [|r l T F IH]; intros bs E; cbn [concat_res sum_res records_error fold_right] in *.
  - apply Ok_inj in E. subst. exists 0%nat. split; reflexivity.
  - apply rbind_ok in E. destruct E as (b & E1 & E). apply rbind_ok in E. destruct E as (bs' & E2 & E). apply Ok_inj in E. subst bs.
    destruct (rr_size c r b T E1) as (n & En & Zn). destruct (IH bs' E2) as (k & Ek & Zk). rewrite En, Ek. cbn [rbind].
    eexists. split; [reflexivity|]. rewrite app_length. unfold records_error in Zk. lia.
Qed.
Lemma questions_size c qs : fold_right (fun q k => question_byte_size q + k)%nat 0%nat qs = length (flat_map (question_to_bytes c) qs).
Proof.
  induction qs as [|q qs IH]; [reflexivity|]. cbn [fold_right flat_map]. rewrite IH, app_length, (question_size c). reflexivity.
Qed.
Lemma patched_length p : length (patched_header p) = 12%nat.
Proof. rewrite patched_header_eq. apply header_length. Qed.
Lemma packet_size c p bs : packet_typed c p -> packet_to_bytes c p = Ok bs ->
  exists n, packet_byte_size c p = Ok n /\ (Z.of_nat n = Z.of_nat (length bs) + records_error (records_of p))%Z.
Proof.
  intros T E. unfold packet_to_bytes in E. apply rbind_ok in E. destruct E as (n & En & E). exists n. split; [exact En|].
  apply records_forall in T. destruct T as (Ta & Tn & Td).
  apply rbind_ok in E. destruct E as (b1 & E1 & E). apply rbind_ok in E. destruct E as (b2 & E2 & E).
  apply rbind_ok in E. destruct E as (b3 & E3 & E). apply Ok_inj in E. subst bs.
  destruct (records_size c _ _ Ta E1) as (n1 & N1 & Z1). destruct (records_size c _ _ Tn E2) as (n2 & N2 & Z2).
  destruct (records_size c _ _ Td E3) as (n3 & N3 & Z3).
  unfold packet_byte_size in En. rewrite N1, N2, N3 in En. cbn [rbind] in En. apply Ok_inj in En. subst n.
  rewrite (questions_size c), !app_length, patched_length. unfold HEADER_SIZE, records_of.
  assert (RE : forall a b, records_error (a ++ b) = (records_error a + records_error b)%Z).
  { unfold records_error. induction a as [|r a IH]; intros b; [reflexivity|]. cbn [app fold_right]. rewrite IH. lia. }
  rewrite !RE. lia.
Qed.

(** ** Never longer *)
Local Opaque be.
Definition proper (f : fqdn) : Prop := Forall (fun l => nonempty l = true) f.
Lemma fqdn_ok_proper f : fqdn_ok f -> proper f.
Proof. apply Forall_impl. intros l [H _]. destruct l; [cbn in H; lia|reflexivity]. Qed.
Lemma not_longer h f m off bs m' : proper f -> fqdn_to_bytes_compressed h f m off = (bs, m') -> (length bs <= length (fqdn_to_bytes f))%nat.
Proof. intros H E. pose proof (compressed_not_longer h f H m off) as L. rewrite E in L. exact L. Qed.
Lemma rdata_not_longer c h d m off bs m' db : Forall proper (rdata_names d) ->
  rdata_to_bytes_compressed c h d m off = Ok (bs, m') -> rdata_to_bytes c d = Ok db -> (length bs <= length db)%nat.
Proof.
  intros P E E'. destruct d; cbn [rdata_to_bytes_compressed rdata_names] in E, P;
    try (rewrite E' in E; cbn [rbind] in E; apply Ok_inj in E; injection E as <- _; apply le_n);
    cbn [rdata_to_bytes] in E'; repeat rewrite Forall_cons_iff in P.
  - apply Ok_inj in E, E'. subst db. eapply not_longer; [apply P|exact E].
  - apply Ok_inj in E, E'. subst db. eapply not_longer; [apply P|exact E].
  - apply Ok_inj in E, E'. subst db. unfold soa_to_bytes_compressed in E. unfold soa_to_bytes.
    destruct (fqdn_to_bytes_compressed h (soa_mname x) _ _) as [b1 m1] eqn:E1.
    destruct (fqdn_to_bytes_compressed h (soa_rname x) _ _) as [b2 m2] eqn:E2. injection E as <- _.
    apply not_longer in E1; [|apply P]. apply not_longer in E2; [|apply P]. rewrite !app_length. lia.
  - apply Ok_inj in E, E'. subst db. eapply not_longer; [apply P|exact E].
  - apply Ok_inj in E, E'. subst db. unfold minfo_to_bytes_compressed in E. unfold minfo_to_bytes.
    destruct (fqdn_to_bytes_compressed h (minfo_r x) _ _) as [b1 m1] eqn:E1.
    destruct (fqdn_to_bytes_compressed h (minfo_e x) _ _) as [b2 m2] eqn:E2. injection E as <- _.
    apply not_longer in E1; [|apply P]. apply not_longer in E2; [|apply P]. rewrite !app_length. lia.
  - apply Ok_inj in E, E'. subst db. unfold mx_to_bytes_compressed in E. unfold mx_to_bytes.
    destruct (fqdn_to_bytes_compressed h (mx_exchange x) _ _) as [b1 m1] eqn:E1. injection E as <- _.
    apply not_longer in E1; [|apply P]. rewrite !app_length. lia.
  - apply Ok_inj in E, E'. subst db. unfold srv_to_bytes_compressed in E. unfold srv_to_bytes.
    destruct (fqdn_to_bytes_compressed h (srv_target x) _ _) as [b1 m1] eqn:E1. injection E as <- _.
    apply not_longer in E1; [|apply P]. rewrite !app_length. lia.
  - apply Ok_inj in E, E'. subst db. unfold naptr_to_bytes_compressed in E. unfold naptr_to_bytes.
    destruct (fqdn_to_bytes_compressed h (na_repl x) _ _) as [b1 m1] eqn:E1. injection E as <- _.
    apply not_longer in E1; [|apply P]. rewrite !app_length. lia.
  - unfold nsec_to_bytes_compressed in E. unfold nsec_to_bytes in E'.
    destruct (fqdn_to_bytes_compressed h (ns_next x) _ _) as [b1 m1] eqn:E1.
    apply rbind_ok in E. destruct E as (tb & T1 & E). apply Ok_inj in E. injection E as <- _.
    apply rbind_ok in E'. destruct E' as (z & _ & E'). rewrite T1 in E'. cbn [rbind] in E'. apply Ok_inj in E'. subst db.
    apply not_longer in E1; [|apply P]. rewrite !app_length. lia.
Qed.
Lemma rr_not_longer c h r m off bs m' pb : Forall proper (rr_names r) ->
  rr_to_bytes_compressed c h r m off = Ok (bs, m') -> rr_to_bytes c r = Ok pb -> (length bs <= length pb)%nat.
Proof.
  intros P E E'. apply Forall_cons_iff in P. destruct P as [P1 P2]. unfold rr_to_bytes_compressed in E.
  destruct (fqdn_to_bytes_compressed h (rr_name r) _ _) as [nb m1] eqn:E1.
  apply rbind_ok in E. destruct E as ([db m2] & E2 & E). cbn [fst snd] in E. apply Ok_inj in E. injection E as <- _.
  unfold rr_to_bytes in E'. apply rbind_ok in E'. destruct E' as (n & _ & E'). apply rbind_ok in E'. destruct E' as (k & _ & E').
  apply rbind_ok in E'. destruct E' as (qb & E3 & E'). apply Ok_inj in E'. subst pb.
  apply not_longer in E1; [|exact P1]. pose proof (rdata_not_longer _ _ _ _ _ _ _ _ P2 E2 E3).
  rewrite !app_length, !be_length. lia.
Qed.
Lemma questions_not_longer c h qs : Forall proper (map q_name qs) -> forall w m w' m',
  questions_compressed c h qs w m = (w', m') -> (length w' <= length w + length (flat_map (question_to_bytes c) qs))%nat.
Proof.
  induction qs as [|q qs IH]; intros P w m w' m' E; cbn [questions_compressed flat_map map] in *.
  - injection E as <- _. lia.
  - apply Forall_cons_iff in P. destruct P as [P1 P2]. unfold question_to_bytes_compressed in E.
    destruct (fqdn_to_bytes_compressed h (q_name q) m (length w)) as [nb m1] eqn:E1.
    apply (IH P2) in E. apply not_longer in E1; [|exact P1]. unfold question_to_bytes at 1.
    rewrite !app_length, !be_length in *. lia.
Qed.
Lemma records_not_longer c h rs : Forall proper (flat_map rr_names rs) -> forall w m w' m' pb,
  records_compressed c h rs w m = Ok (w', m') -> concat_res (rr_to_bytes c) rs = Ok pb ->
  (length w' <= length w + length pb)%nat.
Proof.
  induction rs as [|r rs IH]; intros P w m w' m' pb E E'; cbn [records_compressed flat_map concat_res] in *.
  - apply Ok_inj in E. injection E as <- _. lia.
  - apply Forall_app in P. destruct P as [P1 P2]. apply rbind_ok in E. destruct E as ([b m1] & E1 & E). cbn [fst snd] in E.
    apply rbind_ok in E'. destruct E' as (b' & E2 & E'). apply rbind_ok in E'. destruct E' as (r' & E3 & E'). apply Ok_inj in E'. subst pb.
    pose proof (IH P2 _ _ _ _ _ E E3). pose proof (rr_not_longer _ _ _ _ _ _ _ _ P1 E1 E2). rewrite !app_length in *. lia.
Qed.
Lemma packet_not_longer c h p bs pb : Forall proper (packet_names p) ->
  packet_to_bytes_compressed c h p = Ok bs -> packet_to_bytes c p = Ok pb -> (length bs <= length pb)%nat.
Proof.
  intros P E E'. unfold packet_names, records_of in P. rewrite !flat_map_app, !Forall_app in P. destruct P as (P0 & P1 & P2 & P3).
  unfold packet_to_bytes_compressed in E. destruct (questions_compressed _ _ _ _ _) as [w0 m0] eqn:E0.
  apply rbind_ok in E. destruct E as ([w1 m1] & E1 & E). cbn [fst snd] in E.
  apply rbind_ok in E. destruct E as ([w2 m2] & E2 & E). cbn [fst snd] in E.
  apply rbind_ok in E. destruct E as ([w3 m3] & E3 & E). cbn [fst snd] in E. apply Ok_inj in E. subst w3.
  unfold packet_to_bytes in E'. apply rbind_ok in E'. destruct E' as (n & _ & E').
  apply rbind_ok in E'. destruct E' as (b1 & F1 & E'). apply rbind_ok in E'. destruct E' as (b2 & F2 & E').
  apply rbind_ok in E'. destruct E' as (b3 & F3 & E'). apply Ok_inj in E'. subst pb.
  pose proof (questions_not_longer _ _ _ P0 _ _ _ _ E0). pose proof (records_not_longer _ _ _ P1 _ _ _ _ _ E1 F1).
  pose proof (records_not_longer _ _ _ P2 _ _ _ _ _ E2 F2). pose proof (records_not_longer _ _ _ P3 _ _ _ _ _ E3 F3).
  rewrite header_length in *. rewrite !app_length, patched_length. lia.
Qed.

(** ** Counts in the octets *)
Lemma fields_app (b x : bytes) : length b = 12%nat -> fields_of (b ++ x) = fields_of b.
Proof.
  intros L. destruct (twelve b L) as (? & ? & ? & ? & ? & ? & ? & ? & ? & ? & ? & ? & ->). reflexivity.
Qed.
Lemma plain_counts c p bs : header_typed (p_header p) -> packet_to_bytes c p = Ok bs ->
  fields_of bs = view (p_header (lens16 p)).
Proof.
  intros T E. unfold packet_to_bytes in E. apply rbind_ok in E. destruct E as (n & _ & E).
  apply rbind_ok in E. destruct E as (b1 & F1 & E). apply rbind_ok in E. destruct E as (b2 & F2 & E).
  apply rbind_ok in E. destruct E as (b3 & F3 & E). apply Ok_inj in E. subst bs.
  rewrite <- fields_view by (apply lens16_typed, T). rewrite patched_header_eq.
  apply fields_app, header_length.
Qed.
Lemma compressed_counts c h p bs : header_typed (p_header p) -> packet_to_bytes_compressed c h p = Ok bs ->
  fields_of bs = view (p_header p).
Proof.
  intros T E. unfold packet_to_bytes_compressed in E. destruct (questions_compressed _ _ _ _ _) as [w0 m0] eqn:E0.
  apply rbind_ok in E. destruct E as ([w1 m1] & E1 & E). cbn [fst snd] in E.
  apply rbind_ok in E. destruct E as ([w2 m2] & E2 & E). cbn [fst snd] in E.
  apply rbind_ok in E. destruct E as ([w3 m3] & E3 & E). cbn [fst snd] in E. apply Ok_inj in E. subst w3.
  apply questions_prefix in E0. destruct E0 as [x0 ->]. apply records_prefix in E1. destruct E1 as [x1 ->].
  apply records_prefix in E2. destruct E2 as [x2 ->]. apply records_prefix in E3. destruct E3 as [x3 ->].
  rewrite <- !app_assoc. rewrite <- fields_view by exact T. apply fields_app, header_length.
Qed.

(** ** Parsed packets *)
Lemma record_at_params c d p r e x : byte_list d -> allocatable d -> record_at c d p r e -> rr_data r = DSVCB x ->
  Forall param_fits (sv_params x).
Proof.
  intros B A (k & v & len & _ & _ & _ & _ & _ & _ & _ & _ & UL & -> & Le & E) X. rewrite X in E.
  set (w := firstn (k + 10 + N.to_nat len) d) in *.
  assert (LW : length w = (k + 10 + N.to_nat len)%nat) by (unfold w; apply firstn_length_le; exact Le).
  assert (L16 : len < 65536) by (destruct UL as (a & b & _ & Ha & _ & Hb & ->); lia).
  destruct (rdata_from c (rr_type r) (mkbuf w (k + 10))) as [res b] eqn:ER. cbn [fst] in E. subst res.
  assert (ET : rr_type r = SVCB).
  { pose proof (ok_rdata c (rr_type r) w (k + 10)%nat (firstn_byte_list _ _ B) ltac:(lia)) as R. rewrite ER in R.
    destruct R as (_ & _ & (RT & _)). rewrite <- RT. reflexivity. }
  rewrite ET in ER. unfold rdata_from, pmap in ER. apply bind_ok in ER. destruct ER as (y & b1 & E1 & E2).
  cbn [ret] in E2. injection E2 as -> <-.
  apply (svcb_parsed_fits c w (k + 10) x b1); [apply firstn_byte_list, B| |lia|lia|exact E1].
  unfold allocatable in *. assert (length w <= length d)%nat by (unfold w; rewrite firstn_length; lia). lia.
Qed.

Lemma record_at_ok c d p r e : byte_list d -> allocatable d -> (p <= length d)%nat -> record_at c d p r e ->
  rr_head_ok c r /\ rdata_typed c (rr_data r) /\ rdata_writable c (rr_data r) /\ (keeps_data (rr_data r) -> rdata_fits c (rr_data r)).
Proof.
  intros B A L R. pose proof (record_read c d p r e R) as RR.
  pose proof (record_parsed c d p r _ B L RR) as (H & T & F). split; [exact H|]. split; [exact T|]. split.
  - destruct (rr_data r) eqn:X; try exact I. cbn [rdata_writable].
    eapply Forall_impl; [|apply (record_at_params c d p r e x B A R X)]. intros y. apply param_fits_writable.
  - intros K. apply F. destruct (rr_data r) eqn:X; try exact K. cbn [reparsable].
    apply (record_at_params c d p r e x B A R X).
Qed.

Definition parsed_record (c : cfg) (r : rr) : Prop :=
  rr_head_ok c r /\ rdata_typed c (rr_data r) /\ rdata_writable c (rr_data r) /\ (keeps_data (rr_data r) -> rdata_fits c (rr_data r)).
Lemma section_parsed c d p rs e : byte_list d -> allocatable d -> (e <= length d)%nat -> consecutive (record_at c d) p rs e ->
  Forall (parsed_record c) rs.
Proof.
  intros B A L C. apply (consecutive_Forall _ _ _ _ _ p C (le_n _)). intros q r m Lq Lm Lp R.
  apply (record_at_ok c d q r m B A); [lia|exact R].
Qed.
Lemma packet_parsed_records c d p : byte_list d -> allocatable d -> packet_try_from c d = Ok p ->
  header_typed (p_header p) /\ counts_of p = true_counts p /\ Forall (question_ok c) (p_questions p) /\
  Forall (parsed_record c) (records_of p).
Proof.
  intros B A E. destruct (packet_try_parsed c d p B E) as (H & K & Q & _).
  split; [exact H|]. split; [exact K|]. split; [exact Q|].
  apply (packet_iff c d p B) in E. destruct E as (e & L0 & _ & _ & _ & _ & e1 & e2 & e3 & C1 & C2 & C3 & C4).
  assert (LE : forall p rs e, (p <= length d)%nat -> consecutive (record_at c d) p rs e -> (e <= length d)%nat).
  { clear. intros p rs e L C. revert L. induction C as [|p x m xs e R Lm C IH]; intros L; [exact L|]. apply IH.
    destruct R as (k & v & len & _ & _ & _ & _ & _ & _ & _ & _ & _ & Ee & Le & _). exact Le. }
  assert (LQ : forall p qs e, (p <= length d)%nat -> consecutive (question_at c d) p qs e -> (e <= length d)%nat).
  { clear. intros p rs e L C. revert L. induction C as [|p x m xs e R Lm C IH]; intros L; [exact L|]. apply IH.
    destruct R as (k & v & _ & _ & _ & (a & b & _ & _ & N2 & _) & _ & _ & ->).
    assert (k + 2 + 1 < length d)%nat by (apply nth_error_Some; congruence). lia. }
  unfold records_of. rewrite !Forall_app.
  assert (L1 : (e1 <= length d)%nat) by (eapply LQ; [|exact C1]; exact L0).
  assert (L2 : (e2 <= length d)%nat) by (eapply LE; [|exact C2]; exact L1).
  assert (L3 : (e3 <= length d)%nat) by (eapply LE; [|exact C3]; exact L2).
  assert (L4 : (e <= length d)%nat) by (eapply LE; [|exact C4]; exact L3).
  exact (conj (section_parsed c d e1 _ e2 B A L2 C2) (conj (section_parsed c d e2 _ e3 B A L3 C3) (section_parsed c d e3 _ e B A L4 C4))).
Qed.
