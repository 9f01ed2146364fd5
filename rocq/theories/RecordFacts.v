(** * Questions and records: plain and compressed forms read back. *)
From Verif Require Import Base Utf8 Buffer Fqdn Header Types RDataBasic Bitmap Svcb RDataSec RData Packet BaseFacts Utf8Facts
  BufferFacts FqdnFacts BitmapFacts CodeSpec CodeFacts RDataSpec RDataReads SvcbFacts RDataFacts HeaderSpec HeaderFacts RecordSpec.
From Coq Require Import Lia ZifyBool ZifyNat ZifyN.
Ltac Zify.zify_post_hook ::= Z.div_mod_to_equations.

Lemma reads_framed {A} pre suf (p : P A) bs v n : n = length bs ->
  reads pre [] p bs v -> reads pre suf (framed n p) bs v.
Proof.
  intros -> H. unfold reads in *. rewrite app_nil_r in H. unfold framed, sub_buffer. cbn [data pos].
  replace (length (pre ++ bs ++ suf) <? length pre + length bs)%nat with false
    by (symmetry; apply Nat.ltb_ge; rewrite !app_length; lia).
  replace (firstn (length pre + length bs) (pre ++ bs ++ suf)) with (pre ++ bs).
  - rewrite H. unfold bind, advance. cbn [data pos].
    replace (length (pre ++ bs ++ suf) <? length pre + length bs)%nat with false
      by (symmetry; apply Nat.ltb_ge; rewrite !app_length; lia). reflexivity.
  - rewrite app_assoc, <- app_length, firstn_app, Nat.sub_diag, firstn_all. cbn [firstn]. symmetry. apply app_nil_r.
Qed.

Local Opaque reads be.
(** ** The class field *)
Lemma lor_top n : n < 32768 -> N.lor n TOP_BIT = n + 32768.
Proof.
  intros H. unfold TOP_BIT. change 32768 with (2 ^ 15). 
  assert (E : N.land n (2 ^ 15) = 0).
  { apply N.bits_inj. intros i. rewrite N.land_spec, N.bits_0. destruct (N.eqb_spec i 15) as [->|D].
    - destruct (N.eq_dec n 0) as [->|Z]; [reflexivity|].
      rewrite (N.bits_above_log2 n 15); [reflexivity|]. apply N.log2_lt_pow2; [lia|exact H].
    - rewrite N.pow2_bits_false by congruence. apply andb_false_r. }
  rewrite <- N.lxor_lor by exact E. symmetry. apply N.add_nocarry_lxor. exact E.
Qed.
Lemma land_top n : n < 65536 -> (N.land n TOP_BIT =? 0) = (n <? 32768).
Proof.
  intros H. unfold TOP_BIT.
  assert (E : N.land n 32768 = if N.testbit n 15 then 32768 else 0).
  { apply N.bits_inj. intros i. rewrite N.land_spec. change 32768 with (2 ^ 15).
    destruct (N.eqb_spec i 15) as [->|D].
    - rewrite N.pow2_bits_true, andb_true_r. destruct (N.testbit n 15); [rewrite N.pow2_bits_true|]; reflexivity.
    - rewrite N.pow2_bits_false by congruence. rewrite andb_false_r.
      destruct (N.testbit n 15); [rewrite N.pow2_bits_false by congruence|]; reflexivity. }
  rewrite E. assert (B : N.testbit n 15 = (32768 <=? n)).
  { rewrite N.testbit_eqb. change (2 ^ 15) with 32768.
    destruct (N.leb_spec 32768 n); apply N.eqb_eq || apply N.eqb_neq; lia. }
  rewrite B. destruct (N.leb_spec 32768 n), (N.ltb_spec n 32768); try lia; reflexivity.
Qed.

Lemma qclass_small q : qclass_code q < 32768.
Proof. destruct q; reflexivity. Qed.

Definition question_tail (c : cfg) (f : fqdn) : P question :=
  t <- extract_u16_as (qtype_try_from c) ;;
  if mdns c then
    v <- extract_u16 ;;
    if negb (N.land v TOP_BIT =? 0) then
      k <- lift (qclass_try_from (N.land v 32767)) ;; ret (mkQ f t k true)
    else
      k <- lift (qclass_try_from v) ;; ret (mkQ f t k false)
  else
    k <- extract_u16_as qclass_try_from ;; ret (mkQ f t k false).
Lemma reads_question_tail c q pre suf : qdecodable c (q_type q) -> (mdns c = false -> q_unicast q = false) ->
  reads pre suf (question_tail c (q_name q)) (be 2 (qtype_code (q_type q)) ++ be 2 (question_class_field c q)) q.
Proof.
  intros D M. unfold question_tail, question_class_field.
  eapply reads_bind; [apply (reads_u16_dom _ _ _ _ _ _ _ (qtype_faithful c) D)|].
  pose proof (qclass_small (q_class q)) as L.
  destruct q as [f t k u]. cbn [q_name q_type q_class q_unicast] in *. destruct (mdns c).
  - match goal with |- reads _ _ _ (be 2 ?n) _ => rewrite <- (app_nil_r (be 2 n)) end. eapply reads_bind.
    + apply reads_u16. destruct u; [rewrite lor_top by exact L|]; lia.
    + destruct u.
      * rewrite lor_top by exact L. rewrite land_top by lia.
        replace (qclass_code k + 32768 <? 32768) with false by lia. cbn [negb].
        rewrite land_15. replace ((qclass_code k + 32768) mod 32768) with (qclass_code k) by lia.
        rewrite qclass_roundtrip. apply reads_ret.
      * rewrite land_top by lia. replace (qclass_code k <? 32768) with true by lia. cbn [negb].
        rewrite qclass_roundtrip. apply reads_ret.
  - rewrite (M eq_refl). eapply reads_done; [apply reads_u16_as; [lia|apply qclass_roundtrip]|reflexivity].
Qed.

Lemma reads_question c q pre suf : question_ok c q -> reads pre suf (question_try_from c) (question_to_bytes c q) q.
Proof.
  intros (F & D & M). unfold question_to_bytes.
  change (question_try_from c) with (f <- extract_fqdn ;; question_tail c f).
  eapply reads_bind; [apply reads_fqdn; exact F|]. apply reads_question_tail; assumption.
Qed.
Lemma question_size c q : question_byte_size q = length (question_to_bytes c q).
Proof.
  unfold question_byte_size, question_to_bytes. rewrite !app_length, !be_length, fqdn_byte_size_eq. lia.
Qed.

(** ** Records *)
Lemma rclass_plain_small k : rclass_plain k -> rclass_code k < 32768.
Proof. destruct k; cbn [rclass_plain rclass_code]; lia. Qed.
Lemma class_field_back c r : rclass_plain (rr_class r) -> (mdns c = false -> rr_flush r = false) ->
  rr_class_field c r < 65536 /\ rr_class_field_parse c (rr_class_field c r) = (rr_class r, rr_flush r).
Proof.
  intros K M. pose proof (rclass_plain_small _ K) as L. apply rclass_roundtrip in K.
  unfold rr_class_field, rr_class_field_parse. destruct (mdns c).
  - destruct (rr_flush r).
    + rewrite lor_top by exact L. split; [lia|]. rewrite land_top by lia.
      replace (rclass_code (rr_class r) + 32768 <? 32768) with false by lia. cbn [negb].
      rewrite land_15. replace ((rclass_code (rr_class r) + 32768) mod 32768) with (rclass_code (rr_class r)) by lia.
      rewrite K. reflexivity.
    + split; [lia|]. rewrite land_top by lia. replace (rclass_code (rr_class r) <? 32768) with true by lia. cbn [negb].
      rewrite K. reflexivity.
  - split; [lia|]. rewrite K, (M eq_refl). reflexivity.
Qed.

(** Reading a record whose octets are given, the owner name and the data however they were written. *)
Lemma reads_rr_gen c r nb db pre suf : rr_head_ok c r -> N.of_nat (length db) <= 65535 ->
  (forall suf, reads pre suf extract_fqdn nb (rr_name r)) ->
  reads (pre ++ nb ++ be 2 (rtype_code (rr_type r)) ++ be 2 (rr_class_field c r) ++ be 4 (rr_ttl r)
             ++ be 2 (N.of_nat (length db)))
        [] (rdata_from c (rdata_type (rr_data r))) db (rr_data r) ->
  reads pre suf (rr_try_from c)
        (nb ++ be 2 (rtype_code (rr_type r)) ++ be 2 (rr_class_field c r) ++ be 4 (rr_ttl r)
         ++ be 2 (N.of_nat (length db)) ++ db) r.
Proof.
  intros (F & D & T & K & L & M) B N R. destruct (class_field_back c r K M) as [CB CP].
  unfold rr_try_from. eapply reads_bind; [apply N|].
  eapply reads_bind; [apply (reads_u16_dom _ _ _ _ _ _ _ (rtype_faithful c) D)|].
  eapply reads_bind; [apply reads_u16; exact CB|].
  eapply reads_bind; [apply (reads_bytes _ _ 4); apply be_length|].
  eapply reads_bind; [apply reads_u16; lia|].
  eapply reads_done.
  - apply reads_framed; [lia|]. rewrite T, <- !app_assoc in *. exact R.
  - rewrite CP, unbe_be by exact L. cbn [fst snd]. destruct r; reflexivity.
Qed.

Lemma rr_bytes_eq c r : rdata_typed c (rr_data r) -> rdata_writable c (rr_data r) ->
  exists n db, rdata_byte_size c (rr_data r) = Ok n /\ rdata_to_bytes c (rr_data r) = Ok db /\
    rr_to_bytes c r = Ok (fqdn_to_bytes (rr_name r) ++ be 2 (rtype_code (rr_type r)) ++ be 2 (rr_class_field c r)
                          ++ be 4 (rr_ttl r) ++ be 2 (len16 n) ++ db).
Proof.
  intros T W. apply (rdata_bytes_iff c _ T) in W. destruct W as [db E].
  destruct (rdata_size_total c _ T) as [n En]. exists n, db. split; [exact En|]. split; [exact E|].
  unfold rr_to_bytes, rr_byte_size. rewrite En. cbn [rbind]. rewrite E. reflexivity.
Qed.

Lemma reads_rr c r : rr_plain_ok c r ->
  exists bs, rr_to_bytes c r = Ok bs /\ forall pre suf, reads pre suf (rr_try_from c) bs r.
Proof.
  intros ((H & T & F) & S & B).
  destruct (rr_bytes_eq c r T (rdata_fits_writable c _ F)) as (n & db & En & Eb & E).
  eexists. split; [exact E|]. intros pre suf. specialize (B db Eb).
  apply (rdata_size_exact c _ db T Eb) in S. rewrite S in En. injection En as <-. rewrite len16_id by lia.
  apply reads_rr_gen; [exact H|exact B| |].
  - intros s. apply reads_fqdn. apply H.
  - apply reads_rdata; assumption.
Qed.

(** ** Compressed forms *)
Section Compressed.
  Context (c : cfg) (h : hasher) (U : fqdn -> Prop) (NC : no_collision h U).
  Notation dict := (dict_ok h U 191).

  Lemma compressed_fqdn w m f bs m' : fqdn_ok f -> suffixes_in U f -> dict w m ->
    fqdn_to_bytes_compressed h f m (length w) = (bs, m') -> N.of_nat (length w + length bs) <= 16384 ->
    (forall suf, reads w suf extract_fqdn bs f) /\ dict (w ++ bs) m'.
  Proof. apply (compress_ok h U NC). Qed.

  Lemma compressed_question w m q bs m' : question_ok c q -> suffixes_in U (q_name q) -> dict w m ->
    question_to_bytes_compressed c h q m (length w) = (bs, m') -> N.of_nat (length w + length bs) <= 16384 ->
    (forall suf, reads w suf (question_try_from c) bs q) /\ dict (w ++ bs) m'.
  Proof.
    intros (F & D & M) S DI E B. unfold question_to_bytes_compressed in E.
    destruct (fqdn_to_bytes_compressed h (q_name q) m (length w)) as [nb m1] eqn:E1.
    apply pair_equal_spec in E. destruct E as [E ->]. subst bs.
    rewrite app_length in B.
    destruct (compressed_fqdn w m _ nb m' F S DI E1) as [R DI']; [lia|].
    split; [|rewrite app_assoc; apply dict_ok_ext; exact DI'].
    intros suf. change (question_try_from c) with (f <- extract_fqdn ;; question_tail c f).
    eapply reads_bind; [apply R|]. apply reads_question_tail; assumption.
  Qed.

  Definition names_in (fs : list fqdn) : Prop := forall f, In f fs -> suffixes_in U f.

  Lemma compressed_rdata w m d bs m' : rdata_typed c d -> rdata_fits c d -> names_in (rdata_names d) -> dict w m ->
    rdata_to_bytes_compressed c h d m (length w) = Ok (bs, m') -> N.of_nat (length w + length bs) <= 16384 ->
    reads w [] (rdata_from c (rdata_type d)) bs d /\ dict (w ++ bs) m'.
  Proof.
    intros T F S DI E B.
    assert (PLAIN : rdata_to_bytes c d = Ok bs -> m' = m ->
                    reads w [] (rdata_from c (rdata_type d)) bs d /\ dict (w ++ bs) m').
    { intros E' ->. split; [exact (reads_rdata c d bs w T F E')|apply dict_ok_ext; exact DI]. }
    assert (NM : forall f nb m1, fqdn_ok f -> In f (rdata_names d) -> forall x mm, dict (w ++ x) mm ->
       fqdn_to_bytes_compressed h f mm (length (w ++ x)) = (nb, m1) -> (length x + length nb <= length bs)%nat ->
       (forall suf, reads (w ++ x) suf extract_fqdn nb f) /\ dict ((w ++ x) ++ nb) m1).
    { intros f nb m1 Ff I x mm Dx Ex Lx. apply (compressed_fqdn (w ++ x) mm f nb m1 Ff (S f I) Dx Ex).
      rewrite app_length. lia. }
    destruct d; cbn [rdata_to_bytes_compressed rdata_type rdata_from rdata_names rdata_fits] in *;
      try (apply rbind_ok in E; destruct E as (b & E1 & E); injection E as <- <-; apply PLAIN; [exact E1|reflexivity]).
    - (* NS *) apply Ok_inj in E. unfold name_to_bytes_compressed in E.
      destruct (NM x bs m' F (or_introl eq_refl) [] m) as [R D']; rewrite ?app_nil_r; try assumption; [cbn; lia|].
      rewrite app_nil_r in *. split; [apply reads_pmap; apply R|exact D'].
    - (* CNAME *) apply Ok_inj in E. unfold name_to_bytes_compressed in E.
      destruct (NM x bs m' F (or_introl eq_refl) [] m) as [R D']; rewrite ?app_nil_r; try assumption; [cbn; lia|].
      rewrite app_nil_r in *. split; [apply reads_pmap; apply R|exact D'].
    - (* SOA *) apply Ok_inj in E. unfold soa_to_bytes_compressed in E. destruct F as [F1 F2].
      destruct T as (_ & t1 & t2 & t3 & t4 & t5).
      destruct (fqdn_to_bytes_compressed h (soa_mname x) m (length w)) as [b1 m1] eqn:E1.
      destruct (fqdn_to_bytes_compressed h (soa_rname x) m1 (length w + length b1)) as [b2 m2] eqn:E2.
      apply pair_equal_spec in E. destruct E as [E ->].
      assert (LB : (length b1 + length b2 <= length bs)%nat) by (subst bs; rewrite !app_length; lia).
      destruct (NM (soa_mname x) b1 m1 F1 (or_introl eq_refl) [] m) as [R1 D1]; rewrite ?app_nil_r; try assumption; [cbn; lia|].
      rewrite app_nil_r in *.
      destruct (NM (soa_rname x) b2 m' F2 (or_intror (or_introl eq_refl)) b1 m1) as [R2 D2]; try assumption;
        [rewrite app_length; exact E2|].
      subst bs. split.
      + apply reads_pmap. unfold soa_try_from, soa_fixed_bytes.
        eapply reads_bind; [apply R1|]. eapply reads_bind; [apply R2|].
        eapply reads_bind; [apply reads_u32; assumption|]. eapply reads_bind; [apply reads_u32; assumption|].
        eapply reads_bind; [apply reads_u32; assumption|]. eapply reads_bind; [apply reads_u32; assumption|].
        eapply reads_done; [apply reads_u32; assumption|]. destruct x; reflexivity.
      + rewrite !app_assoc. apply dict_ok_ext. exact D2.
    - (* PTR *) apply Ok_inj in E. unfold name_to_bytes_compressed in E.
      destruct (NM x bs m' F (or_introl eq_refl) [] m) as [R D']; rewrite ?app_nil_r; try assumption; [cbn; lia|].
      rewrite app_nil_r in *. split; [apply reads_pmap; apply R|exact D'].
    - (* MINFO *) apply Ok_inj in E. unfold minfo_to_bytes_compressed in E. destruct F as [F1 F2].
      destruct (fqdn_to_bytes_compressed h (minfo_r x) m (length w)) as [b1 m1] eqn:E1.
      destruct (fqdn_to_bytes_compressed h (minfo_e x) m1 (length w + length b1)) as [b2 m2] eqn:E2.
      apply pair_equal_spec in E. destruct E as [E ->].
      assert (LB : (length b1 + length b2 <= length bs)%nat) by (subst bs; rewrite !app_length; lia).
      destruct (NM (minfo_r x) b1 m1 F1 (or_introl eq_refl) [] m) as [R1 D1]; rewrite ?app_nil_r; try assumption; [cbn; lia|].
      rewrite app_nil_r in *.
      destruct (NM (minfo_e x) b2 m' F2 (or_intror (or_introl eq_refl)) b1 m1) as [R2 D2]; try assumption;
        [rewrite app_length; exact E2|].
      subst bs. split; [|rewrite app_assoc; exact D2].
      apply reads_pmap. unfold minfo_try_from. eapply reads_bind; [apply R1|]. eapply reads_done; [apply R2|].
      destruct x; reflexivity.
    - (* MX *) apply Ok_inj in E. unfold mx_to_bytes_compressed in E. destruct T as [_ T].
      destruct (fqdn_to_bytes_compressed h (mx_exchange x) m (length w + 2)) as [b1 m1] eqn:E1.
      apply pair_equal_spec in E. destruct E as [E ->].
      destruct (NM (mx_exchange x) b1 m' F (or_introl eq_refl) (be 2 (mx_pref x)) m) as [R1 D1];
        [apply dict_ok_ext; exact DI|rewrite app_length, be_length; exact E1|subst bs; rewrite app_length; lia|].
      subst bs. split; [|rewrite app_assoc; exact D1].
      apply reads_pmap. unfold mx_try_from. eapply reads_bind; [apply reads_u16; exact T|].
      eapply reads_done; [apply R1|]. destruct x; reflexivity.
    - (* SRV *) apply Ok_inj in E. unfold srv_to_bytes_compressed in E. destruct T as (_ & t1 & t2 & t3).
      destruct (fqdn_to_bytes_compressed h (srv_target x) m (length w + 6)) as [b1 m1] eqn:E1.
      apply pair_equal_spec in E. destruct E as [E ->].
      destruct (NM (srv_target x) b1 m' F (or_introl eq_refl) (srv_fixed_bytes x) m) as [R1 D1];
        [apply dict_ok_ext; exact DI|rewrite app_length; unfold srv_fixed_bytes; rewrite !app_length, !be_length; exact E1
        |subst bs; rewrite app_length; lia|].
      subst bs. split; [|rewrite app_assoc; exact D1].
      apply reads_pmap. unfold srv_try_from, srv_fixed_bytes in *. rewrite <- !app_assoc.
      eapply reads_bind; [apply reads_u16; assumption|]. eapply reads_bind; [apply reads_u16; assumption|].
      eapply reads_bind; [apply reads_u16; assumption|].
      eapply reads_done; [rewrite <- !app_assoc; apply R1|]. destruct x; reflexivity.
    - (* NAPTR *) apply Ok_inj in E. unfold naptr_to_bytes_compressed in E. destruct T as (_ & t1 & t2 & t3).
      destruct F as (f1 & f2 & f3 & f4).
      destruct (fqdn_to_bytes_compressed h (na_repl x) m _) as [b1 m1] eqn:E1.
      apply pair_equal_spec in E. destruct E as [E ->].
      destruct (NM (na_repl x) b1 m' f4 (or_introl eq_refl) (naptr_fixed_bytes x) m) as [R1 D1];
        [apply dict_ok_ext; exact DI|rewrite app_length; exact E1|subst bs; rewrite app_length; lia|].
      subst bs. split; [|rewrite app_assoc; exact D1].
      apply reads_pmap. eapply (reads_naptr_fixed _ _ x (fun x => x)); try eassumption; [apply R1|].
      destruct x; reflexivity.
    - (* NSEC *) unfold nsec_to_bytes_compressed in E. destruct T as (_ & T & _). destruct F as [F1 F2].
      destruct (fqdn_to_bytes_compressed h (ns_next x) m (length w)) as [b1 m1] eqn:E1.
      apply rbind_ok in E. destruct E as (tb & ET & E). apply Ok_inj in E.
      apply pair_equal_spec in E. destruct E as [E ->].
      destruct (NM (ns_next x) b1 m' F1 (or_introl eq_refl) [] m) as [R1 D1]; rewrite ?app_nil_r; try assumption;
        [subst bs; rewrite app_length; cbn; lia|].
      rewrite app_nil_r in *. subst bs. split; [|rewrite app_assoc; apply dict_ok_ext; exact D1].
      apply reads_pmap. unfold nsec_try_from. eapply reads_bind; [apply R1|].
      eapply reads_done; [apply reads_types; [exact T| |exact ET]|destruct x; reflexivity].
      eapply Forall_impl; [|exact F2]. intros t. apply parseable_decodable.
  Qed.

  Lemma compressed_rr w m r bs m' : rr_ok c r -> names_in (rr_names r) -> dict w m ->
    rr_to_bytes_compressed c h r m (length w) = Ok (bs, m') -> N.of_nat (length w + length bs) <= 16384 ->
    (forall suf, reads w suf (rr_try_from c) bs r) /\ dict (w ++ bs) m'.
  Proof.
    intros (H & T & F) S DI E B. unfold rr_to_bytes_compressed in E.
    destruct (fqdn_to_bytes_compressed h (rr_name r) m (length w)) as [nb m1] eqn:E1.
    apply rbind_ok in E. destruct E as ([db m2] & E2 & E). cbn [fst snd] in E. apply Ok_inj in E.
    apply pair_equal_spec in E. destruct E as [E ->].
    assert (LB : (length nb + 10 + length db = length bs)%nat).
    { subst bs. rewrite !app_length, !be_length. lia. }
    assert (L16 : len16 (length db) = N.of_nat (length db)) by (apply len16_id; lia).
    rewrite L16 in E.
    destruct (compressed_fqdn w m (rr_name r) nb m1) as [RN D1]; try assumption;
      [apply H|apply S; left; reflexivity|lia|].
    set (mid := be 2 (rtype_code (rr_type r)) ++ be 2 (rr_class_field c r) ++ be 4 (rr_ttl r) ++ be 2 (N.of_nat (length db))).
    assert (LM : length mid = 10%nat) by (unfold mid; rewrite !app_length, !be_length; reflexivity).
    destruct (compressed_rdata (w ++ nb ++ mid) m1 (rr_data r) db m') as [RD D2]; try assumption.
    - intros f I. apply S. right. exact I.
    - rewrite app_assoc. apply dict_ok_ext. exact D1.
    - rewrite <- E2. f_equal. rewrite !app_length, !be_length, LM. lia.
    - rewrite !app_length, LM. lia.
    - split.
      + intros suf. subst bs. rewrite <- !app_assoc. apply reads_rr_gen; [exact H|lia|exact RN|].
        unfold mid in RD. exact RD.
      + subst bs. rewrite <- !app_assoc. unfold mid in D2. rewrite <- !app_assoc in D2. exact D2.
  Qed.
End Compressed.
