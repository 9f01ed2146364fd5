(** * Properties C22 - C27: questions, record data and resource records *)
From Verif Require Import Base Utf8 Buffer Fqdn Header Types RDataBasic Bitmap Svcb RDataSec RData Packet BaseFacts BufferFacts NameSpec
  FqdnFacts CompressSpec ChunkFacts CodeSpec RDataSpec RDataFacts RecordSpec ParseFacts WireSpec WireFacts RecordProps PropName.
From Coq Require Import Lia ZifyNat ZifyN.

(** Builds used in the examples: with both features, release / without features, overflow checks. *)
Definition ex_cfg : cfg := mkcfg true true false.
Definition ex_cfg0 : cfg := mkcfg false false true.

Lemma basic_exists c t : dnssec_only t = false -> rtype_exists c t = true.
Proof. intros E. unfold rtype_exists. rewrite E. apply Bool.orb_true_r. Qed.

(** ** C22 *)
Theorem C22_question_roundtrip : forall (c : cfg) (q : question) (pre suf : bytes), question_ok c q ->
  let d := pre ++ question_to_bytes c q ++ suf in
  question_try_from c (mkbuf d (length pre)) = (Ok q, mkbuf d (length pre + question_byte_size q)) /\
  question_byte_size q = length (question_to_bytes c q).
Proof. intros c q pre suf H. split; [apply question_roundtrip, H|apply RecordFacts.question_size]. Qed.
(** What the parser accepts, on any octets, with and without features. *)
Theorem C22_question_layout : forall (c : cfg) (d : bytes) (p : nat) (q : question) (e : nat),
  byte_list d -> (p <= length d)%nat ->
  (question_try_from c (mkbuf d p) = (Ok q, mkbuf d e) <-> question_at c d p q e).
Proof. exact question_iff. Qed.
(** The compressed form, after octets [w] written with dictionary [m]. *)
Theorem C22_question_compressed : forall (c : cfg) (h : hasher) (fs : list fqdn) (w : bytes) (m : names) (q : question) bs m',
  hash_separates h fs -> In (q_name q) fs -> question_ok c q -> dict_ok h (tail_of fs) 191 w m ->
  question_to_bytes_compressed c h q m (length w) = (bs, m') -> N.of_nat (length w + length bs) <= 16384 ->
  (forall suf, question_try_from c (mkbuf (w ++ bs ++ suf) (length w)) = (Ok q, mkbuf (w ++ bs ++ suf) (length w + length bs))) /\
  dict_ok h (tail_of fs) 191 (w ++ bs) m'.
Proof. exact question_compressed. Qed.
Definition ex_question : question := mkQ ex_www (QT AAAA) QIN true.
Example C22_ex : question_ok ex_cfg ex_question /\ question_ok ex_cfg0 (mkQ ex_www QT_ANY QCH false) /\
  question_to_bytes ex_cfg ex_question = fqdn_to_bytes ex_www ++ [0; 28; 128; 1].
Proof.
  split; [|split; [|reflexivity]].
  - split; [repeat constructor|]. split; [repeat split; discriminate|discriminate].
  - split; [repeat constructor|]. split; [exact I|reflexivity].
Qed.
Example C22_ex_layout : question_at ex_cfg (question_to_bytes ex_cfg ex_question) 0 ex_question 21.
Proof. apply question_iff; [repeat constructor|apply Nat.le_0_l|reflexivity]. Qed.
Print Assumptions C22_question_roundtrip.
Print Assumptions C22_question_layout.
Print Assumptions C22_question_compressed.

(** ** C23: false for SSHFP, which never reads back; true for every other type *)
Theorem C23_sshfp_refuted : forall (c : cfg) (x : sshfp) (pre : bytes) (y : sshfp) (b' : buf),
  rdata_from c SSHFP (mkbuf (pre ++ sshfp_to_bytes x) (length pre)) = (Ok (DSSHFP y), b') -> y <> x.
Proof. exact sshfp_never. Qed.
Theorem C23_rdata_roundtrip_partial : forall (c : cfg) (d : rdata), rdata_typed c d -> rdata_fits c d ->
  exists bs, rdata_to_bytes c d = Ok bs /\
    forall pre, rdata_from c (rdata_type d) (mkbuf (pre ++ bs) (length pre)) =
                (Ok d, mkbuf (pre ++ bs) (length pre + length bs)).
Proof. exact rdata_roundtrip. Qed.
(** Values that some of the conditions of [rdata_fits] exclude: an empty list of rendezvous servers, a
    TSIG time of more than 48 bits. *)
Theorem C23_hip_empty_refuted : forall c : cfg, exists x y : hip, x <> y /\
  rdata_typed c (DHIP x) /\ rdata_typed c (DHIP y) /\ hip_to_bytes x = hip_to_bytes y.
Proof.
  intros c. exists (mkHip AlgRSA [1] [2] (Some [])), (mkHip AlgRSA [1] [2] None).
  repeat split; try discriminate; apply basic_exists; reflexivity.
Qed.
Theorem C23_tsig_time_refuted : forall c : cfg, exists x y : tsig, x <> y /\
  rdata_typed c (DTSIG x) /\ rdata_typed c (DTSIG y) /\ tsig_to_bytes x = tsig_to_bytes y.
Proof.
  intros c. exists (mkTsig [] 281474976710656 0 [] 0 TsNone []), (mkTsig [] 0 0 [] 0 TsNone []).
  repeat split; try discriminate; apply basic_exists; reflexivity.
Qed.
Definition ex_soa : rdata := DSOA (mkSoa ex_www ex_ftp 2024 3600 600 86400 300).
Definition ex_caa : rdata := DCAA (mkCaa true [105; 115; 115; 117; 101] [99; 97]).
Definition ex_nsec : rdata := DNSEC (mkNsec ex_ftp [A; MX; RRSIG; URI]).
Definition ex_svcb : rdata := DSVCB (mkSvcb 1 ex_www [PAlpn [[104; 50]]; PPort 443]).
Example C23_ex : Forall (fun d => rdata_typed ex_cfg d /\ rdata_fits ex_cfg d)
  [ex_soa; ex_caa; ex_nsec; ex_svcb; DTXT [[195; 164]; []]; DOPT [(10, [1; 2]); (3, [])]].
Proof.
  repeat (apply Forall_cons); try apply Forall_nil.
  all: cbn; unfold tset_typed, tset_fits, fqdn_ok, label_ok, decodable, U8, U16, U32, text, short, short16; cbn; repeat split;
    repeat (first [apply Forall_cons|apply Forall_nil]); cbn; repeat split; try reflexivity; try lia; try discriminate.
  - repeat constructor.
  - repeat constructor; cbn; intuition discriminate.
Qed.
Print Assumptions C23_sshfp_refuted.
Print Assumptions C23_rdata_roundtrip_partial.
Print Assumptions C23_hip_empty_refuted.
Print Assumptions C23_tsig_time_refuted.

(** ** C24: false for OPT, RRSIG, CAA with a tag and SVCB with parameters; true for all others *)
Theorem C24_byte_size_refuted : forall c : cfg, exists (d : rdata) (bs : bytes),
  rdata_typed c d /\ rdata_fits c d /\ rdata_to_bytes c d = Ok bs /\ rdata_byte_size c d <> Ok (length bs).
Proof.
  intros c. exists ex_caa. eexists. repeat split; try discriminate; try (apply basic_exists; reflexivity); cbn; unfold short; cbn; lia.
Qed.
Theorem C24_byte_size_iff_partial : forall (c : cfg) (d : rdata) (bs : bytes), rdata_typed c d -> rdata_to_bytes c d = Ok bs ->
  (rdata_byte_size c d = Ok (length bs) <->
   match d with
   | DOPT _ | DRRSIG _ => False
   | DCAA x => caa_tag x = []
   | DSVCB x => sv_params x = []
   | _ => True
   end).
Proof. exact rdata_size_exact. Qed.
Theorem C24_byte_size_error_partial : forall (c : cfg) (d : rdata) (bs : bytes), rdata_typed c d -> rdata_to_bytes c d = Ok bs ->
  exists n, rdata_byte_size c d = Ok n /\
    Z.of_nat n = (Z.of_nat (length bs) +
      match d with
      | DOPT m => 2 - 4 * Z.of_nat (length m)
      | DRRSIG _ => -1
      | DCAA x => - Z.of_nat (length (caa_tag x))
      | DSVCB x => 4 * Z.of_nat (length (sv_params x))
      | _ => 0
      end)%Z.
Proof. exact rdata_size. Qed.
Example C24_ex : rdata_typed ex_cfg ex_soa /\ (exists bs, rdata_to_bytes ex_cfg ex_soa = Ok bs /\ rdata_byte_size ex_cfg ex_soa = Ok (length bs)) /\
  rdata_byte_size ex_cfg ex_svcb = Ok 40%nat /\ (exists bs, rdata_to_bytes ex_cfg ex_svcb = Ok bs /\ length bs = 32%nat).
Proof.
  split; [repeat split|]. split; [eexists; split; reflexivity|]. split; [reflexivity|eexists; split; reflexivity].
Qed.
Print Assumptions C24_byte_size_refuted.
Print Assumptions C24_byte_size_iff_partial.
Print Assumptions C24_byte_size_error_partial.

(** ** C25: RDLENGTH; false in the plain form of the four types of C24 *)
Theorem C25_plain_refuted : forall c : cfg, exists (r : rr) (db : bytes) (n : N),
  rr_ok c r /\ rdata_to_bytes c (rr_data r) = Ok db /\ N.of_nat (length db) <= 65535 /\
  rr_to_bytes c r = Ok (fqdn_to_bytes (rr_name r) ++ be 2 (rtype_code (rr_type r)) ++ be 2 (rclass_code (rr_class r))
                        ++ be 4 (rr_ttl r) ++ be 2 n ++ db) /\ n < 65536 /\ n <> N.of_nat (length db).
Proof.
  intros c. exists (mkRR ex_www CAA false CIN 60 ex_caa), [128; 5; 105; 115; 115; 117; 101; 99; 97], 4.
  split.
  { repeat split; try discriminate; try (apply basic_exists; reflexivity); try reflexivity; cbn; unfold fqdn_ok, label_ok, short; repeat constructor; cbn; lia. }
  split; [reflexivity|]. split; [cbn; lia|]. split; [|split; [lia|cbn; lia]].
  destruct c as [[|] [|] o]; reflexivity.
Qed.
Theorem C25_plain_iff_partial : forall (c : cfg) (r : rr) (bs : bytes), rdata_typed c (rr_data r) -> rr_to_bytes c r = Ok bs ->
  exists n db, rdata_to_bytes c (rr_data r) = Ok db /\
    bs = fqdn_to_bytes (rr_name r) ++
         (be 2 (rtype_code (rr_type r)) ++ be 2 (rr_class_field c r) ++ be 4 (rr_ttl r)) ++ be 2 n ++ db /\
    n < 65536 /\
    (N.of_nat (length db) <= 65535 -> (n = N.of_nat (length db) <-> size_exact (rr_data r))).
Proof. exact rdlength_plain. Qed.
Theorem C25_compressed : forall (c : cfg) (h : hasher) (r : rr) (m : names) (off : nat) bs m',
  rr_to_bytes_compressed c h r m off = Ok (bs, m') ->
  exists nb n db, bs = nb ++ (be 2 (rtype_code (rr_type r)) ++ be 2 (rr_class_field c r) ++ be 4 (rr_ttl r)) ++ be 2 n ++ db /\
    n < 65536 /\
    (exists m1 m2, fqdn_to_bytes_compressed h (rr_name r) m off = (nb, m1) /\
       rdata_to_bytes_compressed c h (rr_data r) m1 (off + length nb + 10) = Ok (db, m2)) /\
    (N.of_nat (length db) <= 65535 -> n = N.of_nat (length db)).
Proof. exact rdlength_compressed. Qed.
Definition ex_rr : rr := mkRR ex_www SOA true CIN 86400 ex_soa.
Example C25_ex : rdata_typed ex_cfg (rr_data ex_rr) /\ size_exact (rr_data ex_rr) /\ (exists bs, rr_to_bytes ex_cfg ex_rr = Ok bs) /\
  (exists bs m, rr_to_bytes_compressed ex_cfg ex_hash ex_rr [] 12 = Ok (bs, m) /\ length bs = 55%nat).
Proof. repeat split; repeat eexists. Qed.
Print Assumptions C25_plain_refuted.
Print Assumptions C25_plain_iff_partial.
Print Assumptions C25_compressed.

(** ** C26: round trip of records; false in the plain form of the four types of C24 *)
Theorem C26_plain_refuted : forall c : cfg, exists (r : rr) (bs : bytes),
  rr_ok c r /\ rr_to_bytes c r = Ok bs /\ fst (rr_try_from c (buf_from bs)) <> Ok r.
Proof.
  intros c. exists (mkRR [] CAA false CIN 60 ex_caa). eexists. split; [|split].
  - repeat split; try discriminate; try (apply basic_exists; reflexivity); try reflexivity; try constructor; cbn; unfold short; cbn; lia.
  - destruct c as [[|] [|] o]; reflexivity.
  - destruct c as [[|] [|] o]; vm_compute; discriminate.
Qed.
Theorem C26_plain_iff_partial : forall (c : cfg) (r : rr), rr_ok c r ->
  (forall db, rdata_to_bytes c (rr_data r) = Ok db -> N.of_nat (length db) <= 65535) ->
  ((exists bs, rr_to_bytes c r = Ok bs /\ forall pre suf,
      rr_try_from c (mkbuf (pre ++ bs ++ suf) (length pre)) = (Ok r, mkbuf (pre ++ bs ++ suf) (length pre + length bs))) <->
   size_exact (rr_data r)).
Proof. exact rr_plain_iff. Qed.
Theorem C26_compressed : forall (c : cfg) (h : hasher) (fs : list fqdn) (w : bytes) (m : names) (r : rr) bs m',
  hash_separates h fs -> incl (rr_names r) fs -> rr_ok c r -> dict_ok h (tail_of fs) 191 w m ->
  rr_to_bytes_compressed c h r m (length w) = Ok (bs, m') -> N.of_nat (length w + length bs) <= 16384 ->
  (forall suf, rr_try_from c (mkbuf (w ++ bs ++ suf) (length w)) = (Ok r, mkbuf (w ++ bs ++ suf) (length w + length bs))) /\
  dict_ok h (tail_of fs) 191 (w ++ bs) m'.
Proof. exact record_compressed. Qed.
(** A class [UdpPayloadSize] that equals another class, or uses bit 15, does not survive; neither does a
    record whose type is not the type of its data. *)
Theorem C26_class_refuted : forall c : cfg, exists (r r' : rr) (bs bs' : bytes),
  rr_class r = UdpPayloadSize 1 /\ rr_to_bytes c r = Ok bs /\
  fst (rr_try_from c (buf_from bs)) = Ok (mkRR (rr_name r) (rr_type r) (rr_flush r) CIN (rr_ttl r) (rr_data r)) /\
  rr_class r' = UdpPayloadSize 40000 /\ rr_to_bytes c r' = Ok bs' /\
  fst (rr_try_from c (buf_from bs')) = Ok (mkRR (rr_name r') (rr_type r') (mdns c) (UdpPayloadSize 7232) (rr_ttl r') (rr_data r')).
Proof.
  intros c. exists (mkRR [] A false (UdpPayloadSize 1) 60 (DA 1)), (mkRR [] A false (UdpPayloadSize 40000) 60 (DA 1)).
  do 2 eexists. destruct c as [[|] [|] o]; repeat split.
Qed.
Theorem C26_mismatch_refuted : forall c : cfg, exists (r : rr) (bs : bytes), rr_type r <> rdata_type (rr_data r) /\
  rr_to_bytes c r = Ok bs /\ fst (rr_try_from c (buf_from bs)) = Ok (mkRR [] A false CIN 60 (DA 16909060)) /\
  r <> mkRR [] A false CIN 60 (DA 16909060).
Proof.
  intros c. exists (mkRR [] A false CIN 60 (DNULL [1; 2; 3; 4])). eexists.
  destruct c as [[|] [|] o]; repeat split; discriminate.
Qed.
Example C26_ex : rr_ok ex_cfg ex_rr /\ size_exact (rr_data ex_rr) /\ hash_separates ex_hash (rr_names ex_rr) /\
  dict_ok ex_hash (tail_of (rr_names ex_rr)) 191 [] [].
Proof.
  split; [|split; [exact I|split; [apply separates_b_true; reflexivity|apply dict_ok_nil]]].
  repeat split; try discriminate; try reflexivity; unfold fqdn_ok, label_ok; repeat constructor; cbn; lia.
Qed.
Print Assumptions C26_plain_refuted.
Print Assumptions C26_plain_iff_partial.
Print Assumptions C26_compressed.
Print Assumptions C26_class_refuted.
Print Assumptions C26_mismatch_refuted.

(** ** C27 *)
Theorem C27_record_layout : forall (c : cfg) (d : bytes) (p : nat) (r : rr) (e : nat), byte_list d -> (p <= length d)%nat ->
  (rr_try_from c (mkbuf d p) = (Ok r, mkbuf d e) <-> record_at c d p r e).
Proof. exact record_iff. Qed.
(** The variant is the one the type names, and the cursor has moved over name, ten octets and RDLENGTH. *)
Theorem C27_variant_and_framing : forall (c : cfg) (d : bytes) (p : nat) (r : rr) (b' : buf), byte_list d -> (p <= length d)%nat ->
  rr_try_from c (mkbuf d p) = (Ok r, b') ->
  rdata_type (rr_data r) = rr_type r /\ data b' = d /\
  exists k len, name_at d 191 p (rr_name r) k /\ u16_at d k (rtype_code (rr_type r)) /\ u16_at d (k + 8) len /\
    pos b' = (k + 10 + N.to_nat len)%nat /\ (pos b' <= length d)%nat.
Proof.
  intros c d p r b' B L E. split; [symmetry; apply (record_parsed c d p r b' B L E)|].
  destruct (record_got c d p r b' B L E) as (e & (k & v & len & R) & ->). split; [reflexivity|]. exists k, len. cbn [pos]. tauto.
Qed.
Example C27_ex : forall bs, rr_to_bytes ex_cfg ex_rr = Ok bs -> byte_list bs /\ record_at ex_cfg bs 0 ex_rr 81.
Proof.
  intros bs E. injection E as <-. assert (B : byte_list (match rr_to_bytes ex_cfg ex_rr with Ok b => b | _ => [] end)).
  { repeat constructor. }
  split; [exact B|]. apply record_iff; [exact B|apply Nat.le_0_l|reflexivity].
Qed.
Print Assumptions C27_record_layout.
Print Assumptions C27_variant_and_framing.
