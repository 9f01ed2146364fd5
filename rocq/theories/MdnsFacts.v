(** * Lemmas about bit 15 of the class field, the no-compression rule, and parsed packets. *)
From Verif Require Import Base Utf8 Buffer Fqdn Header Types RDataBasic Bitmap Svcb RDataSec RData Packet BaseFacts BufferFacts
  NameSpec FqdnFacts CompressSpec CodeSpec CodeFacts HeaderSpec HeaderFacts RDataSpec RDataReads SvcbFacts RDataFacts RecordSpec RecordFacts
  ParseFacts WireSpec WireFacts RecordProps PacketFacts SvcbParse ApiSpec PacketProps FailSpec FailFacts.
From Coq Require Import Lia ZifyBool ZifyNat ZifyN.
Ltac Zify.zify_post_hook ::= Z.div_mod_to_equations.
Local Opaque reads be.

(** ** Reading *)
Lemma question_class_read c f t k v pre suf : fqdn_ok f -> qdecodable c t -> U16 v -> qclass_code k = v mod 32768 ->
  let bs := fqdn_to_bytes f ++ be 2 (qtype_code t) ++ be 2 v in
  question_try_from c (mkbuf (pre ++ bs ++ suf) (length pre)) =
    (Ok (mkQ f t k (mdns c && (32768 <=? v))), mkbuf (pre ++ bs ++ suf) (length pre + length bs)).
Proof.
  intros F D U K bs. enough (R : reads pre suf (question_try_from c) bs (mkQ f t k (mdns c && (32768 <=? v)))).
  { Local Transparent reads. exact R. }
  unfold bs. change (question_try_from c) with (f <- extract_fqdn ;; question_tail c f).
  eapply reads_bind; [apply reads_fqdn; exact F|]. unfold question_tail.
  eapply reads_bind; [apply (reads_u16_dom _ _ _ _ _ _ _ (qtype_faithful c) D)|]. unfold U16 in U.
  destruct (mdns c); cbn [andb].
  - rewrite <- (app_nil_r (be 2 v)). eapply reads_bind; [apply reads_u16; exact U|]. rewrite land_top by exact U.
    destruct (N.ltb_spec v 32768) as [L|L]; cbn [negb].
    + replace (32768 <=? v) with false by lia. rewrite (proj2 (qclass_try_ok v k) K). apply reads_ret.
    + replace (32768 <=? v) with true by lia. rewrite (proj2 (qclass_try_ok (N.land v 32767) k)); [apply reads_ret|].
      rewrite WireFacts.land_15, N.mod_mod by discriminate. exact K.
  - eapply reads_done; [apply reads_u16_as; [exact U|apply qclass_try_ok; exact K]|reflexivity].
Qed.
Local Opaque reads.
(** A record whose class field holds any value at all. *)
Definition with_class (c : cfg) (r : rr) (k : rclass) (flush : bool) : rr :=
  mkRR (rr_name r) (rr_type r) flush k (rr_ttl r) (rr_data r).
Lemma record_class_read c r v pre suf db : rr_plain_ok c r -> U16 v -> rdata_to_bytes c (rr_data r) = Ok db ->
  let bs := fqdn_to_bytes (rr_name r) ++ be 2 (rtype_code (rr_type r)) ++ be 2 v ++ be 4 (rr_ttl r)
            ++ be 2 (N.of_nat (length db)) ++ db in
  exists k, rclass_code k = v mod 32768 /\ rclass_plain k /\
  rr_try_from c (mkbuf (pre ++ bs ++ suf) (length pre)) =
    (Ok (with_class c r k (mdns c && (32768 <=? v))), mkbuf (pre ++ bs ++ suf) (length pre + length bs)).
Proof.
  intros ((H & T & Fi) & S & Sm) U E bs. unfold U16 in U. destruct H as (F & D & Ty & K & L & M). specialize (Sm db E).
  destruct (rclass_parse c v U) as (A & B & C). destruct (rr_class_field_parse c v) as [k fl] eqn:P. cbn [fst snd] in A, B, C.
  exists k. split; [exact A|]. split; [exact B|].
  enough (R : reads pre suf (rr_try_from c) bs (with_class c r k (mdns c && (32768 <=? v)))).
  { Local Transparent reads. exact R. }
  unfold bs, rr_try_from. eapply reads_bind; [apply reads_fqdn; exact F|].
  eapply reads_bind; [apply (reads_u16_dom _ _ _ _ _ _ _ (rtype_faithful c) D)|].
  eapply reads_bind; [apply reads_u16; exact U|].
  eapply reads_bind; [apply reads_bytes; apply be_length|].
  eapply reads_bind; [apply reads_u16; lia|].
  eapply reads_done.
  - apply reads_framed; [lia|]. rewrite Ty. apply reads_rdata; assumption.
  - rewrite P, unbe_be by exact L. cbn [fst snd]. unfold with_class, top_bit in *. rewrite C. reflexivity.
Qed.
Lemma reads_then {X Y} pre suf rest (p : P X) (k : X -> P Y) bs v : reads pre (rest ++ suf) p bs v ->
  bind p k (mkbuf (pre ++ (bs ++ rest) ++ suf) (length pre)) = k v (mkbuf ((pre ++ bs) ++ rest ++ suf) (length (pre ++ bs))).
Proof.
  intros R. unfold bind. unfold reads in R. rewrite <- !app_assoc in *. rewrite R, app_length. reflexivity.
Qed.
Lemma question_class_unread c f t v pre suf : fqdn_ok f -> qdecodable c t -> U16 v -> (forall k, qclass_code k <> v mod 32768) ->
  exists e b, question_try_from c (mkbuf (pre ++ (fqdn_to_bytes f ++ be 2 (qtype_code t) ++ be 2 v) ++ suf) (length pre)) = (Err e, b).
Proof.
  intros F D U NK. assert (NQ : forall w, w mod 32768 = v mod 32768 -> exists e, qclass_try_from w = Err e).
  { intros w W. destruct (qclass_try_from w) eqn:E; [|eexists; reflexivity| |].
    - apply qclass_try_ok in E. destruct (NK a). congruence.
    - unfold qclass_try_from in E. destruct (assoc _ _); discriminate.
    - unfold qclass_try_from in E. destruct (assoc _ _); discriminate. }
  unfold question_try_from. rewrite (reads_then _ _ _ _ _ _ _ (reads_fqdn _ _ _ F)).
  rewrite (reads_then _ _ _ _ _ _ _ (reads_u16_dom _ _ _ _ _ _ _ (qtype_faithful c) D)).
  rewrite <- (app_nil_r (be 2 v)). destruct (mdns c).
  - rewrite (reads_then _ _ _ _ _ _ _ (reads_u16 _ _ _ U)). destruct (negb _); unfold bind, lift.
    + destruct (NQ (N.land v 32767)) as [e ->]; [rewrite WireFacts.land_15, N.mod_mod by discriminate; reflexivity|]. eauto.
    + destruct (NQ v eq_refl) as [e ->]. eauto.
  - unfold extract_u16_as. unfold bind at 1. rewrite (reads_then _ _ _ _ _ _ _ (reads_u16 _ _ _ U)).
    unfold lift. destruct (NQ v eq_refl) as [e ->]. eauto.
Qed.

(** ** Writing *)
Lemma qclass_lt k : qclass_code k < 32768.
Proof. destruct k; cbn; lia. Qed.
Lemma question_field c q : question_class_field c q = qclass_code (q_class q) + (if mdns c && q_unicast q then 32768 else 0).
Proof.
  unfold question_class_field. pose proof (qclass_lt (q_class q)). destruct (mdns c); [|cbn [andb]; lia].
  destruct (q_unicast q); cbn [andb]; [apply lor_top; assumption|lia].
Qed.
Lemma record_field c r : rclass_code (rr_class r) < 32768 ->
  rr_class_field c r = rclass_code (rr_class r) + (if mdns c && rr_flush r then 32768 else 0).
Proof.
  unfold rr_class_field. intros H. destruct (mdns c); [|cbn [andb]; lia].
  destruct (rr_flush r); cbn [andb]; [apply lor_top; assumption|lia].
Qed.
Lemma question_written c q : question_to_bytes c q =
  fqdn_to_bytes (q_name q) ++ be 2 (qtype_code (q_type q)) ++ be 2 (qclass_code (q_class q) + (if mdns c && q_unicast q then 32768 else 0)).
Proof. unfold question_to_bytes. rewrite question_field. reflexivity. Qed.
Lemma question_written_compressed c h q m off bs m' : question_to_bytes_compressed c h q m off = (bs, m') ->
  exists nb, fqdn_to_bytes_compressed h (q_name q) m off = (nb, m') /\
  bs = nb ++ be 2 (qtype_code (q_type q)) ++ be 2 (qclass_code (q_class q) + (if mdns c && q_unicast q then 32768 else 0)).
Proof.
  unfold question_to_bytes_compressed. rewrite question_field. destruct (fqdn_to_bytes_compressed _ _ _ _) as [nb m1].
  intros E. injection E as <- <-. exists nb. auto.
Qed.
Lemma record_written c r bs : rclass_code (rr_class r) < 32768 -> rr_to_bytes c r = Ok bs ->
  exists rest, bs = fqdn_to_bytes (rr_name r) ++ be 2 (rtype_code (rr_type r)) ++
    be 2 (rclass_code (rr_class r) + (if mdns c && rr_flush r then 32768 else 0)) ++ rest.
Proof.
  intros H E. unfold rr_to_bytes in E. apply rbind_ok in E. destruct E as (? & _ & E). apply rbind_ok in E. destruct E as (? & _ & E).
  apply rbind_ok in E. destruct E as (? & _ & E). apply Ok_inj in E. subst bs. rewrite record_field by exact H. eexists; reflexivity.
Qed.
Lemma record_written_compressed c h r m off bs m' : rclass_code (rr_class r) < 32768 -> rr_to_bytes_compressed c h r m off = Ok (bs, m') ->
  exists nb m1 rest, fqdn_to_bytes_compressed h (rr_name r) m off = (nb, m1) /\ bs = nb ++ be 2 (rtype_code (rr_type r)) ++
    be 2 (rclass_code (rr_class r) + (if mdns c && rr_flush r then 32768 else 0)) ++ rest.
Proof.
  intros H E. unfold rr_to_bytes_compressed in E. destruct (fqdn_to_bytes_compressed _ _ _ _) as [nb m1].
  apply rbind_ok in E. destruct E as ([db m2] & _ & E). apply Ok_inj in E. cbn [fst snd] in E. injection E as <- _.
  exists nb, m1. rewrite record_field by exact H. eexists. split; [reflexivity|]. rewrite <- !app_assoc. reflexivity.
Qed.

(** ** No compression where it is not allowed *)
Lemma no_compression c h d m off : compression_allowed (rdata_type d) = false ->
  rdata_to_bytes_compressed c h d m off = (let! bs := rdata_to_bytes c d in Ok (bs, m)).
Proof. intros H. destruct d; cbn in H; try discriminate; reflexivity. Qed.

(** ** Packets that have been parsed *)
Lemma parsed_serialises c d p : byte_list d -> allocatable d -> packet_try_from c d = Ok p ->
  (exists bs, packet_to_bytes c p = Ok bs) /\ forall h, exists bs, packet_to_bytes_compressed c h p = Ok bs.
Proof.
  intros B A E. destruct (packet_parsed_records c d p B A E) as (_ & _ & _ & R).
  assert (T : packet_typed c p) by (eapply Forall_impl; [|exact R]; intros r H; apply H).
  assert (W : packet_writable c p) by (eapply Forall_impl; [|exact R]; intros r H; apply H).
  split; [|intros h].
  - destruct (packet_plain_cases c p T) as [[_ H]|[H _]]; [exact H|contradiction].
  - destruct (packet_compressed_cases c h p T) as [[_ H]|[H _]]; [exact H|contradiction].
Qed.
Lemma parsed_roundtrip c d p : byte_list d -> allocatable d -> packet_try_from c d = Ok p ->
  Forall (fun r => keeps_data (rr_data r)) (records_of p) ->
  (Forall (fun r => size_exact (rr_data r) /\ forall db, rdata_to_bytes c (rr_data r) = Ok db -> N.of_nat (length db) <= 65535) (records_of p) ->
   exists bs, packet_to_bytes c p = Ok bs /\ packet_try_from c bs = Ok p) /\
  (forall h, hash_separates h (packet_names p) ->
   exists bs, packet_to_bytes_compressed c h p = Ok bs /\ (N.of_nat (length bs) <= 16384 -> packet_try_from c bs = Ok p)).
Proof.
  intros B A E KD. pose proof (packet_parsed_records c d p B A E) as (H & K & Q & R). split.
  - intros SE. destruct (packet_roundtrip c p) as (bs & Eb & F).
    + split; [exact H|]. split; [exact Q|]. rewrite Forall_forall in *. intros r I.
      destruct (R r I) as (R1 & R2 & R3 & R4), (SE r I) as [S1 S2]. split; [|auto]. split; [exact R1|auto].
    + apply counts_small; assumption.
    + exists bs. split; [exact Eb|]. specialize (F []). rewrite app_nil_r, recount_same in F by exact K. exact F.
  - intros h HS. destruct (proj2 (parsed_serialises c d p B A E) h) as [bs Eb]. exists bs. split; [exact Eb|]. intros L.
    rewrite <- (app_nil_r bs). apply (packet_compressed c h p bs); try assumption.
    split; [exact H|]. split; [exact Q|]. rewrite Forall_forall in *. intros r I.
    destruct (R r I) as (R1 & R2 & R3 & R4). split; [exact R1|auto].
Qed.

(** ** Single cases *)
Lemma firstn_exact {X} (a b : list X) n : length a = n -> firstn n (a ++ b) = a.
Proof. intros <-. rewrite firstn_app, firstn_all, Nat.sub_diag. apply app_nil_r. Qed.
Lemma header_parts c h p pb cb : header_typed (p_header p) ->
  packet_to_bytes c p = Ok pb -> packet_to_bytes_compressed c h p = Ok cb -> firstn 4 pb = firstn 4 (header_to_bytes (p_header p)) /\
  firstn 12 cb = header_to_bytes (p_header p).
Proof.
  intros _ E E'. split.
  - unfold packet_to_bytes in E. repeat (apply rbind_ok in E; destruct E as (? & _ & E)). apply Ok_inj in E. subst pb.
    unfold patched_header. rewrite <- !app_assoc. apply firstn_exact. rewrite firstn_length, header_length. reflexivity.
  - unfold packet_to_bytes_compressed in E'. destruct (questions_compressed _ _ _ _ _) as [w0 m0] eqn:E0.
    apply rbind_ok in E'. destruct E' as ([w1 m1] & E1 & E'). cbn [fst snd] in E'.
    apply rbind_ok in E'. destruct E' as ([w2 m2] & E2 & E'). cbn [fst snd] in E'.
    apply rbind_ok in E'. destruct E' as ([w3 m3] & E3 & E'). cbn [fst snd] in E'. apply Ok_inj in E'. subst w3.
    apply questions_prefix in E0. destruct E0 as [x0 ->]. apply records_prefix in E1. destruct E1 as [x1 ->].
    apply records_prefix in E2. destruct E2 as [x2 ->]. apply records_prefix in E3. destruct E3 as [x3 ->].
    rewrite <- !app_assoc. apply firstn_exact, header_length.
Qed.

Lemma self_pointer d p : pointer_at d p p -> circular d p.
Proof.
  intros H. exists (Some p, p), (Some p, p). split; [|split].
  - eapply hops_step; [apply hop_first; [exact H|apply le_n]|apply hops_refl].
  - apply hop_again; [exact H|apply le_n].
  - apply hops_refl.
Qed.
Lemma rclass_unique k k' : rclass_plain k -> rclass_plain k' -> rclass_code k = rclass_code k' -> k = k'.
Proof.
  intros P P' E. destruct k, k'; cbn in *; try reflexivity; try discriminate; try lia. congruence.
Qed.
Lemma known_name h f m off p : f <> [] -> names_get (h f) m = Some p -> fqdn_to_bytes_compressed h f m off = (pointer_bytes p, m).
Proof. intros N E. destruct f as [|l f]; [contradiction|]. cbn [fqdn_to_bytes_compressed]. rewrite E. reflexivity. Qed.
Lemma beyond_rfc3597 c h f m off p : f <> [] -> names_get (h f) m = Some p ->
  (forall a b e, rdata_to_bytes_compressed c h (DSRV (mkSrv a b e f)) m off = Ok (be 2 a ++ be 2 b ++ be 2 e ++ pointer_bytes p, m)) /\
  (forall ts db, types_to_bytes c ts = Ok db -> rdata_to_bytes_compressed c h (DNSEC (mkNsec f ts)) m off = Ok (pointer_bytes p ++ db, m)).
Proof.
  intros N E. split.
  - intros a b e. cbn [rdata_to_bytes_compressed srv_to_bytes_compressed]. unfold srv_to_bytes_compressed.
    cbn [srv_prio srv_weight srv_port srv_target]. rewrite known_name with (p := p) by assumption. reflexivity.
  - intros ts db B. cbn [rdata_to_bytes_compressed]. unfold nsec_to_bytes_compressed. cbn [ns_next ns_types].
    rewrite known_name with (p := p) by assumption. rewrite B. reflexivity.
Qed.
Lemma nameless_returns c t w q : byte_list w -> (q <= length w)%nat ->
  ~ In t [NS; CNAME; PTR; SOA; MINFO; NSEC; TKEY; TSIG; MX; SVCB; SRV; RRSIG; NAPTR; IPSECKEY; HIP; CSYNC] ->
  (exists d, fst (rdata_from c t (mkbuf w q)) = Ok d) \/ (exists e, fst (rdata_from c t (mkbuf w q)) = Err e).
Proof.
  intros B L N.
  assert (F : forall f, ~ fails f (fst (rdata_from c t (mkbuf w q)))).
  { intros f H. apply (rdata_fails f c t w q B L) in H. apply N. destruct H as [(p & P & _)|(_ & _ & O)].
    - destruct P; cbn [In] in *; intuition (subst; auto 20).
    - destruct t; cbn in O; try contradiction; cbn; auto 20. }
  pose proof (F Panics) as F1. pose proof (F Loops) as F2. cbn [fails] in F1, F2.
  destruct (fst (rdata_from c t (mkbuf w q))); [left|right|destruct (F1 eq_refl)|destruct (F2 eq_refl)]; eauto.
Qed.
Definition huge : param := PEch (repeat 0 (N.to_nat 65532)).
Lemma huge_param_panics c h : ovf c = true -> exists p : packet,
  packet_typed c p /\ packet_to_bytes c p = Panic /\ packet_to_bytes_compressed c h p = Panic.
Proof.
  intros O. set (p := mkPacket header_default [] [mkRR [] SVCB false CIN 0 (DSVCB (mkSvcb 1 [] [huge]))] [] []).
  assert (T : packet_typed c p).
  { repeat constructor. unfold rtype_exists. destruct (dnssec c); reflexivity. }
  assert (W : ~ packet_writable c p).
  { intros W. inversion W as [|? ? H _]; subst. cbn [rr_data rdata_writable sv_params] in H. inversion H as [|? ? K _]; subst.
    destruct K as [K|K]; [congruence|]. unfold huge, param_byte_size in K. rewrite repeat_length in K. lia. }
  exists p. split; [exact T|].
  destruct (packet_plain_cases c p T) as [[X _]|[_ E]]; [contradiction|].
  destruct (packet_compressed_cases c h p T) as [[X _]|[_ E']]; [contradiction|]. auto.
Qed.
