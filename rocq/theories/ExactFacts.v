(** * Which values read back as written: the converses of the round trips. *)
From Verif Require Import Base Utf8 Buffer Fqdn Header Types RDataBasic Bitmap Svcb RDataSec RData Packet BaseFacts Utf8Facts BufferFacts
  NameSpec FqdnLoop FqdnFacts CompressSpec ChunkFacts CodeSpec CodeFacts HeaderSpec RDataSpec RDataReads SvcbFacts RDataFacts RecordSpec RecordFacts ParseFacts
  WireSpec WireFacts RecordProps SvcbParse FailSpec FieldSpec FieldFacts HeldFacts.
From Coq Require Import Lia ZifyBool ZifyNat ZifyN.
Ltac Zify.zify_post_hook ::= Z.div_mod_to_equations.

(** Cutting a text somewhere and decoding the piece makes it at most nine octets longer. *)
Lemma lossy_cut s n : is_text s -> (length (utf8_lossy (firstn n s)) <= n + 9)%nat.
Proof.
  intros [cps [H ->]]. revert n. induction H as [|cp cps Hc Hs IH]; intros n; cbn [flat_map].
  - rewrite firstn_nil. cbn. lia.
  - pose proof (encode_length cp) as L. rewrite firstn_app. destruct (Nat.le_gt_cases (length (utf8_encode cp)) n) as [G|G].
    + rewrite firstn_all2 by exact G. rewrite lossy_app_text.
      * rewrite app_length. specialize (IH (n - length (utf8_encode cp))%nat). lia.
      * exists [cp]. split; [constructor; [exact Hc|constructor]|]. cbn [flat_map]. rewrite app_nil_r. reflexivity.
    + replace (n - length (utf8_encode cp))%nat with 0%nat by lia. cbn [firstn]. rewrite app_nil_r.
      pose proof (lossy_length (firstn n (utf8_encode cp))) as M. rewrite firstn_length in M. lia.
Qed.

(** A string whose length octet is truncated does not come back. *)
Lemma long_never s a rest : is_text s -> len8 (length s) = N.of_nat (length a) -> firstn (length a) (s ++ rest) = a -> utf8_lossy a = s -> short s.
Proof.
  intros T L F E. unfold short. destruct (Nat.le_gt_cases (length s) 255) as [G|G]; [exact G|exfalso].
  unfold len8 in L. assert (LA : (length a < 256 <= length s)%nat) by (unfold u8 in L; lia).
  rewrite firstn_app in F. replace (length a - length s)%nat with 0%nat in F by lia. cbn [firstn] in F. rewrite app_nil_r in F.
  pose proof (lossy_cut s (length a) T) as M. rewrite F, E in M. unfold u8 in L. lia.
Qed.

Lemma string_head pre s rest a e : string_at (pre ++ char_string s ++ rest) (length pre) a e ->
  len8 (length s) = N.of_nat (length a) /\ firstn (length a) (s ++ rest) = a /\ e = (length pre + 1 + length a)%nat.
Proof.
  intros (O & L & S & ->). unfold octet_at in O. rewrite nth_error_app2 in O by lia. rewrite Nat.sub_diag in O. cbn in O. injection O as O.
  split; [exact O|]. split; [|reflexivity]. unfold slice in S. rewrite skipn_app in S. rewrite skipn_all2 in S by lia.
  replace (length pre + 1 - length pre)%nat with 1%nat in S by lia. cbn [app skipn char_string] in S. exact S.
Qed.
Lemma txt_short l : forall pre raw, Forall is_text l ->
  consecutive (string_at (pre ++ flat_map char_string l)) (length pre) raw (length (pre ++ flat_map char_string l)) ->
  map utf8_lossy raw = l -> Forall short l.
Proof.
  induction l as [|s l IH]; intros pre raw T C E; [constructor|]. destruct raw as [|a raw]; [discriminate|]. cbn [map] in E. injection E as Ea E.
  apply Forall_cons_iff in T. destruct T as [T TL]. inversion C as [|p' x' m xs e' H Lt C']; subst p' x' xs e'.
  cbn [flat_map] in *. destruct (string_head _ _ _ _ _ H) as (H1 & H2 & ->).
  assert (S : short s) by exact (long_never s a _ T H1 H2 Ea). constructor; [exact S|].
  assert (LA : length a = length s) by (unfold short, len8, u8 in *; lia).
  apply (IH (pre ++ char_string s) raw TL); [|exact E]. rewrite <- app_assoc. 
  replace (length (pre ++ char_string s)) with (length pre + 1 + length a)%nat by (rewrite app_length; cbn [char_string length]; lia). exact C'.
Qed.

Lemma rdata_exact c d bs pre : rdata_typed c d -> rdata_to_bytes c d = Ok bs -> byte_list (pre ++ bs) -> allocatable (pre ++ bs) ->
  N.of_nat (length bs) <= 65535 ->
  (fst (rdata_from c (rdata_type d) (mkbuf (pre ++ bs) (length pre))) = Ok d <-> rdata_fits c d).
Proof.
  intros T E B A W. assert (L : (length pre <= length (pre ++ bs))%nat) by (rewrite app_length; lia). split.
  - intros R. destruct (rdata_from c (rdata_type d) (mkbuf (pre ++ bs) (length pre))) as [r b] eqn:ER. cbn [fst] in R. subst r.
    pose proof (ok_rdata c (rdata_type d) _ _ B L) as K. rewrite ER in K. destruct K as (_ & _ & (_ & _ & K)). apply K. clear K.
    destruct d; try exact I; cbn [reparsable].
    + cbn [rdata_type rdata_to_bytes] in *. injection E as <-. unfold rdata_from, pmap in ER. apply bind_ok in ER. destruct ER as (y & b1 & E1 & E2).
      cbn [ret] in E2. injection E2 as -> <-. apply txt_iff in E1; [|assumption..]. destruct E1 as (raw & C & -> & _).
      unfold txt_to_bytes in C. rewrite fold_app_flat in C. cbn [app] in C. eapply txt_short; [|exact C|reflexivity].
      apply Forall_map, Forall_forall. intros s _. apply utf8_lossy_text.
    + cbn [rdata_type rdata_to_bytes] in *. injection E as <-. exact (sshfp_never c x pre x b ER eq_refl).
    + cbn [rdata_type] in *. unfold rdata_from, pmap in ER. apply bind_ok in ER. destruct ER as (y & b1 & E1 & E2).
      cbn [ret] in E2. injection E2 as -> <-. apply (svcb_parsed_fits c _ _ x b1 B A L); [|exact E1]. rewrite app_length. lia.
    + cbn [rdata_type rdata_to_bytes] in *. injection E as <-. unfold rdata_from, pmap in ER. apply bind_ok in ER. destruct ER as (y & b1 & E1 & E2).
      cbn [ret] in E2. injection E2 as -> <-. destruct (caa_got _ _ _ _ B L E1) as (f & raw & e & _ & S & _ & _ & ET & _).
      unfold caa_to_bytes in S. destruct x as [cr tag v]. cbn [caa_tag caa_value caa_critical] in *.
      change ([if cr then 128 else 0] ++ [len8 (length tag)] ++ tag ++ v) with ([if cr then 128 else 0] ++ char_string tag ++ v) in S.
      rewrite app_assoc in S. replace (length pre + 1)%nat with (length (pre ++ [if cr then 128 else 0])) in S by (rewrite app_length; reflexivity).
      destruct (string_head _ _ _ _ _ S) as (H1 & H2 & _). apply (long_never tag raw v); try assumption; [|congruence].
      rewrite ET. apply utf8_lossy_text.
  - intros F. destruct (rdata_roundtrip c d T F) as (bs' & E' & R). rewrite E in E'. injection E' as <-. rewrite R. reflexivity.
Qed.

Lemma name_exact f pre suf : byte_list (pre ++ fqdn_to_bytes f ++ suf) ->
  (fst (extract_fqdn (mkbuf (pre ++ fqdn_to_bytes f ++ suf) (length pre))) = Ok f <-> fqdn_ok f).
Proof.
  intros B. split; [|intros F; pose proof (reads_fqdn f pre suf F) as R; unfold reads in R; rewrite R; reflexivity].
  assert (L : (length pre <= length (pre ++ fqdn_to_bytes f ++ suf))%nat) by (rewrite app_length; lia). intros R.
  pose proof (ok_fqdn (mkcfg true true true) _ _ B L) as K. destruct (extract_fqdn _) as [r b]. cbn [fst] in R. subst r. apply K.
Qed.
Lemma question_exact c q pre suf : byte_list (pre ++ question_to_bytes c q ++ suf) ->
  (fst (question_try_from c (mkbuf (pre ++ question_to_bytes c q ++ suf) (length pre))) = Ok q <-> question_ok c q).
Proof.
  intros B. split; [|intros F; pose proof (question_roundtrip c q pre suf F) as R; cbn zeta in R; rewrite R; reflexivity].
  assert (L : (length pre <= length (pre ++ question_to_bytes c q ++ suf))%nat) by (rewrite app_length; lia). intros R.
  pose proof (ok_question c _ _ B L) as K. destruct (question_try_from c _) as [r b]. cbn [fst] in R. subst r. apply K.
Qed.

Lemma record_exact c r bs : rdata_typed c (rr_data r) -> rr_to_bytes c r = Ok bs -> byte_list bs -> allocatable bs ->
  ((forall pre suf, reads pre suf (rr_try_from c) bs r) <-> rr_plain_ok c r).
Proof.
  intros T E B A. split.
  - intros R. specialize (R [] []). unfold reads in R. cbn [app length Nat.add] in R. rewrite app_nil_r in R.
    pose proof (record_parsed c bs 0 r _ B (Nat.le_0_l _) R) as (H & _ & _).
    apply record_iff in R; [|exact B|apply Nat.le_0_l]. destruct R as (k & v & len & N1 & _ & _ & _ & _ & _ & _ & _ & U & Ee & _ & D).
    destruct (rdlength_plain c r bs T E) as (n & db & Ed & Eb & Ln & I).
    assert (K : k = length (fqdn_to_bytes (rr_name r))).
    { pose proof (reads_fqdn (rr_name r) [] (rr_head_bytes c r ++ be 2 n ++ db) (proj1 H)) as RF. unfold reads in RF. cbn [app length Nat.add] in RF. rewrite <- Eb in RF.
      apply extract_fqdn_iff in RF; [|exact B]. apply (name_at_unique bs 0 _ _ _ _ B N1 RF). }
    assert (LH : length (rr_head_bytes c r) = 8%nat) by (unfold rr_head_bytes; rewrite !app_length, !be_length; reflexivity).
    assert (EN : len = n).
    { destruct U as (a & b & U1 & _ & U2 & _ & ->). rewrite Eb in U1, U2. subst k. rewrite app_assoc in U1, U2.
      rewrite nth_error_app2 in U1, U2 by (rewrite app_length; lia). rewrite app_length, LH in U1, U2.
      match type of U1 with nth_error _ ?x = _ => replace x with 0%nat in U1 by lia end.
      match type of U2 with nth_error _ ?x = _ => replace x with 1%nat in U2 by lia end.
      cbn in U1, U2. injection U1 as <-. injection U2 as <-. change (256 ^ 1) with 256. change (256 ^ 0) with 1. lia. }
    subst len. assert (LB : length bs = (k + 10 + length db)%nat) by (rewrite Eb, !app_length, LH, be_length; lia).
    assert (LD : n = N.of_nat (length db)) by lia.
    assert (W : N.of_nat (length db) <= 65535) by lia.
    split; [split; [exact H|split; [exact T|]]|split; [apply (I W), LD|intros db' Ed'; congruence]].
    rewrite firstn_all in D. rewrite (proj1 (proj2 (proj2 H))) in D.
    rewrite Eb in D. replace (k + 10)%nat with (length (fqdn_to_bytes (rr_name r) ++ rr_head_bytes c r ++ be 2 n)) in D
      by (rewrite !app_length, LH, be_length; lia).
    rewrite !(app_assoc _ _ db) in D. 
    apply (rdata_exact c (rr_data r) db _ T Ed) in D; [exact D| | |exact W].
    + rewrite <- !app_assoc. rewrite <- Eb. exact B.
    + rewrite <- !app_assoc. rewrite <- Eb. exact A.
  - intros P. destruct (reads_rr c r P) as (bs' & E' & R). rewrite E in E'. injection E' as <-. exact R.
Qed.
