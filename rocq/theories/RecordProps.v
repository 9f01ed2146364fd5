(** * Lemmas behind the properties of questions, record data and records. *)
From Verif Require Import Base Utf8 Buffer Fqdn Header Types RDataBasic Bitmap Svcb RDataSec RData Packet BaseFacts BufferFacts
  NameSpec FqdnLoop FqdnFacts CompressSpec ChunkFacts CodeSpec CodeFacts HeaderSpec RDataSpec RDataReads SvcbFacts RDataFacts RecordSpec RecordFacts ParseFacts
  WireSpec WireFacts.
From Coq Require Import Lia ZifyBool ZifyNat ZifyN.
Ltac Zify.zify_post_hook ::= Z.div_mod_to_equations.

Lemma question_roundtrip c q pre suf : question_ok c q ->
  let d := pre ++ question_to_bytes c q ++ suf in
  question_try_from c (mkbuf d (length pre)) = (Ok q, mkbuf d (length pre + question_byte_size q)).
Proof. intros H d. rewrite (question_size c). exact (reads_question c q pre suf H). Qed.

Lemma rdata_roundtrip c d : rdata_typed c d -> rdata_fits c d ->
  exists bs, rdata_to_bytes c d = Ok bs /\
    forall pre, rdata_from c (rdata_type d) (mkbuf (pre ++ bs) (length pre)) = (Ok d, mkbuf (pre ++ bs) (length pre + length bs)).
Proof.
  intros T F. destruct (proj2 (rdata_bytes_iff c d T) (rdata_fits_writable c d F)) as [bs E]. exists bs. split; [exact E|].
  intros pre. pose proof (reads_rdata c d bs pre T F E) as R. unfold reads in R. rewrite app_nil_r in R. exact R.
Qed.

(** The size error stays below 65536 as long as the data fits a record. *)
Lemma opt_entries_length m : (4 * length m <= length (flat_map opt_entry_bytes m))%nat.
Proof.
  induction m as [|e m IH]; [apply le_n|]. cbn [flat_map length]. rewrite app_length.
  assert (K : (4 <= length (opt_entry_bytes e))%nat) by (destruct e; unfold opt_entry_bytes; rewrite !app_length, !be_length; lia).
  lia.
Qed.
Lemma opt_length m : (4 * length m <= length (opt_to_bytes m))%nat.
Proof. pose proof (opt_size m) as E. unfold opt_byte_size in E. 
  assert (G : forall (m : list (N * bytes)) n, (n <= fold_left (fun acc (e : N * bytes) => acc + length (snd e)) m n)%nat).
  { clear m E. induction m as [|e m IH]; intros n; cbn [fold_left]; [lia|]. specialize (IH (n + length (snd e))%nat). lia. }
  specialize (G m 2%nat). lia.
Qed.
Lemma params_length c ps bs : params_bytes c ps = Ok bs -> (4 * length ps <= length bs)%nat.
Proof.
  revert bs. induction ps as [|p ps IH]; intros bs E; cbn [params_bytes length] in *; [lia|].
  apply rbind_ok in E. destruct E as (b & E1 & E). apply rbind_ok in E. destruct E as (r & E2 & E). apply Ok_inj in E. subst bs.
  rewrite app_length. specialize (IH r E2). unfold param_to_bytes in E1. apply rbind_ok in E1. destruct E1 as (l & _ & E1).
  apply Ok_inj in E1. subst b. rewrite !app_length, !be_length. lia.
Qed.
Lemma size_error_small c d bs : rdata_to_bytes c d = Ok bs -> N.of_nat (length bs) <= 65535 ->
  size_error d <> 0%Z -> (size_error d mod 65536 <> 0)%Z.
Proof.
  intros E B Z. destruct d; cbn [size_error] in *; try (exfalso; apply Z; reflexivity).
  - lia.
  - lia.
  - cbn [rdata_to_bytes] in E. unfold svcb_to_bytes in E. apply rbind_ok in E. destruct E as (r & E1 & E). apply Ok_inj in E. subst bs.
    apply params_length in E1. rewrite !app_length, !be_length in B. lia.
  - cbn [rdata_to_bytes] in E. apply Ok_inj in E. subst bs. pose proof (caa_size x). unfold caa_byte_size in *. lia.
Qed.

Definition rr_head_bytes (c : cfg) (r : rr) : bytes :=
  be 2 (rtype_code (rr_type r)) ++ be 2 (rr_class_field c r) ++ be 4 (rr_ttl r).
Lemma rdlength_plain c r bs : rdata_typed c (rr_data r) -> rr_to_bytes c r = Ok bs ->
  exists n db, rdata_to_bytes c (rr_data r) = Ok db /\
    bs = fqdn_to_bytes (rr_name r) ++ rr_head_bytes c r ++ be 2 n ++ db /\ n < 65536 /\
    (N.of_nat (length db) <= 65535 -> (n = N.of_nat (length db) <-> size_exact (rr_data r))).
Proof.
  intros T E. unfold rr_to_bytes in E. apply rbind_ok in E. destruct E as (k & _ & E).
  apply rbind_ok in E. destruct E as (n & En & E). apply rbind_ok in E. destruct E as (db & Ed & E). apply Ok_inj in E. subst bs.
  exists (len16 n), db. split; [exact Ed|]. split; [unfold rr_head_bytes; rewrite <- !app_assoc; reflexivity|].
  split; [apply len16_lt|]. intros B. destruct (rdata_size c _ db T Ed) as (n' & En' & S). rewrite En in En'. injection En' as <-.
  rewrite <- size_error_exact. split.
  - intros H. destruct (Z.eq_dec (size_error (rr_data r)) 0) as [Z|Z]; [exact Z|]. exfalso.
    apply (size_error_small c _ _ Ed B Z). unfold len16, u16 in H. lia.
  - intros Z. rewrite len16_id; lia.
Qed.
Lemma rdlength_compressed c h r m off bs m' : rr_to_bytes_compressed c h r m off = Ok (bs, m') ->
  exists nb n db, bs = nb ++ rr_head_bytes c r ++ be 2 n ++ db /\ n < 65536 /\
    (exists m1 m2, fqdn_to_bytes_compressed h (rr_name r) m off = (nb, m1) /\
       rdata_to_bytes_compressed c h (rr_data r) m1 (off + length nb + 10) = Ok (db, m2)) /\
    (N.of_nat (length db) <= 65535 -> n = N.of_nat (length db)).
Proof.
  intros E. unfold rr_to_bytes_compressed in E. destruct (fqdn_to_bytes_compressed h (rr_name r) m off) as [nb m1] eqn:E1.
  cbv zeta in E. apply rbind_ok in E. destruct E as ([db m2] & Ed & E). cbn [fst snd] in E. apply Ok_inj in E.
  apply pair_equal_spec in E. destruct E as [E <-]. subst bs. exists nb, (len16 (length db)), db.
  split; [unfold rr_head_bytes; rewrite <- !app_assoc; reflexivity|]. split; [apply len16_lt|]. split.
  - exists m1, m2. split; [reflexivity|]. rewrite !app_length, !be_length in Ed.
    replace (off + length nb + 10)%nat with (off + (length nb + (2 + (2 + 4))) + 2)%nat by lia. exact Ed.
  - intros B. apply len16_id. lia.
Qed.

Local Opaque be.
(** A record read back in the plain form, with the cursor right behind it, iff the size is right. *)
Lemma rr_plain_iff c r : rr_ok c r -> (forall db, rdata_to_bytes c (rr_data r) = Ok db -> N.of_nat (length db) <= 65535) ->
  ((exists bs, rr_to_bytes c r = Ok bs /\ forall pre suf, reads pre suf (rr_try_from c) bs r) <-> size_exact (rr_data r)).
Proof.
  intros (H & T & F) B. split.
  - intros (bs & E & R). destruct (rdlength_plain c r bs T E) as (n & db & Ed & -> & Ln & I). apply (I (B db Ed)).
    specialize (R [] []). unfold reads in R. cbn [app length Nat.add] in R. rewrite app_nil_r in R.
    unfold rr_try_from in R. apply bind_ok in R. destruct R as (f & b1 & R1 & R).
    pose proof (reads_fqdn (rr_name r) [] (rr_head_bytes c r ++ be 2 n ++ db) (proj1 H)) as RF. unfold reads in RF.
    cbn [app length Nat.add] in RF. rewrite RF in R1. injection R1 as <- <-.
    apply bind_ok in R. destruct R as (t & b1 & R1 & R). apply bind_ok in R1. destruct R1 as (x & b2 & R1 & R2).
    apply bind_ok in R1. destruct R1 as (y & b3 & R1 & R3). apply extract_bytes_ok in R1. cbn [data pos] in R1. destruct R1 as (_ & -> & ->).
    cbn [ret] in R3. injection R3 as <- <-. unfold lift in R2. injection R2 as _ <-.
    apply bind_ok in R. destruct R as (v & b1 & R1 & R).
    apply bind_ok in R1. destruct R1 as (y & b3 & R1 & R3). apply extract_bytes_ok in R1. cbn [data pos] in R1. destruct R1 as (_ & -> & ->).
    cbn [ret] in R3. injection R3 as <- <-.
    apply bind_ok in R. destruct R as (tb & b1 & R1 & R). apply extract_bytes_ok in R1. cbn [data pos] in R1. destruct R1 as (_ & -> & ->).
    apply bind_ok in R. destruct R as (len & b1 & R1 & R).
    set (a := fqdn_to_bytes (rr_name r)) in *.
    assert (EL : extract_u16 (mkbuf (a ++ rr_head_bytes c r ++ be 2 n ++ db) (length a + 2 + 2 + 4))
                 = (Ok n, mkbuf (a ++ rr_head_bytes c r ++ be 2 n ++ db) (length a + 2 + 2 + 4 + 2))).
    { pose proof (reads_u16 (a ++ rr_head_bytes c r) db n Ln) as RU. unfold reads in RU. rewrite app_length, be_length, <- !app_assoc in RU.
      replace (length (rr_head_bytes c r)) with 8%nat in RU by (unfold rr_head_bytes; rewrite !app_length, !be_length; reflexivity).
      replace (length a + 2 + 2 + 4)%nat with (length a + 8)%nat by lia. exact RU. }
    rewrite EL in R1. injection R1 as <- <-.
    apply bind_ok in R. destruct R as (dt & b1 & R1 & R). apply WindowFacts.framed_ok in R1. cbn [data pos] in R1. destruct R1 as [-> _].
    cbn zeta in R. cbn [ret] in R. injection R as _ R. rewrite !app_length, !be_length in R.
    unfold rr_head_bytes in R. rewrite !app_length, !be_length in R. lia.
  - intros S. apply reads_rr. split; [split; [exact H|split; assumption]|]. split; assumption.
Qed.

Lemma record_parsed c d p r b : byte_list d -> (p <= length d)%nat -> rr_try_from c (mkbuf d p) = (Ok r, b) -> rr_parsed c r.
Proof. intros B L E. pose proof (ok_rr c d p B L) as R. rewrite E in R. apply R. Qed.

Lemma record_iff c d p r e : byte_list d -> (p <= length d)%nat ->
  (rr_try_from c (mkbuf d p) = (Ok r, mkbuf d e) <-> record_at c d p r e).
Proof.
  intros B L. split; [|apply record_read]. intros E. destruct (record_got _ _ _ _ _ B L E) as (e' & R & E'). injection E' as ->. exact R.
Qed.
Lemma question_iff c d p q e : byte_list d -> (p <= length d)%nat ->
  (question_try_from c (mkbuf d p) = (Ok q, mkbuf d e) <-> question_at c d p q e).
Proof.
  intros B L. split; [|apply question_read]. intros E. destruct (question_got _ _ _ _ _ B L E) as (e' & R & E'). injection E' as ->. exact R.
Qed.

(** Compressed, after [w] whose dictionary is [m]. *)
Lemma names_in_self fs : names_in (tail_of fs) fs.
Proof. intros f I. apply tail_of_suffixes, I. Qed.
Lemma names_in_incl fs gs : incl gs fs -> names_in (tail_of fs) gs.
Proof. intros I f H. apply tail_of_suffixes, I, H. Qed.
Lemma question_compressed c h fs w m q bs m' : hash_separates h fs -> In (q_name q) fs -> question_ok c q ->
  dict_ok h (tail_of fs) 191 w m -> question_to_bytes_compressed c h q m (length w) = (bs, m') ->
  N.of_nat (length w + length bs) <= 16384 ->
  (forall suf, question_try_from c (mkbuf (w ++ bs ++ suf) (length w)) = (Ok q, mkbuf (w ++ bs ++ suf) (length w + length bs))) /\
  dict_ok h (tail_of fs) 191 (w ++ bs) m'.
Proof.
  intros HS I Q D E L. apply (compressed_question c h (tail_of fs) HS w m q bs m' Q (tail_of_suffixes _ _ I) D E L).
Qed.
Lemma record_compressed c h fs w m r bs m' : hash_separates h fs -> incl (rr_names r) fs -> rr_ok c r ->
  dict_ok h (tail_of fs) 191 w m -> rr_to_bytes_compressed c h r m (length w) = Ok (bs, m') ->
  N.of_nat (length w + length bs) <= 16384 ->
  (forall suf, rr_try_from c (mkbuf (w ++ bs ++ suf) (length w)) = (Ok r, mkbuf (w ++ bs ++ suf) (length w + length bs))) /\
  dict_ok h (tail_of fs) 191 (w ++ bs) m'.
Proof.
  intros HS I Q D E L. apply (compressed_rr c h (tail_of fs) HS w m r bs m' Q (names_in_incl _ _ I) D E L).
Qed.
