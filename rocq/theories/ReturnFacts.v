(** * Facts about compressed packets that come back: every record in them was writable and readable. *)
From Coq Require Import Lia ZifyBool ZifyNat ZifyN.
From Verif Require Import Base Utf8 Buffer Fqdn Header Types RDataBasic Svcb RDataSec RData Packet BaseFacts BufferFacts NameSpec FqdnFacts FqdnLoop CompressSpec ChunkFacts WireSpec HeaderSpec HeaderFacts RDataSpec RecordSpec RDataReads RDataFacts RecordFacts RecordProps PacketFacts FieldSpec FieldFacts FailSpec FailFacts WireFacts DnssecFacts PacketProps ParseFacts ReadFacts ExactFacts SpoilFacts SvcbParse Utf8Facts.
Local Opaque reads be.

Lemma records_compressed_app c h xs ys w m : records_compressed c h (xs ++ ys) w m = (let! s := records_compressed c h xs w m in records_compressed c h ys (fst s) (snd s)).
Proof.
  revert w m. induction xs as [|x xs IH]; intros w m; cbn [app records_compressed rbind fst snd]; [reflexivity|].
  destruct (rr_to_bytes_compressed c h x m (length w)) as [[b m1]| | |]; cbn [rbind fst snd]; [apply IH|reflexivity..].
Qed.

(** Data of the types whose reading does not bound what writing truncates are never compressed. *)
Lemma uncompressed c h d m off bm : ~ keeps_data d -> rdata_to_bytes_compressed c h d m off = Ok bm -> rdata_to_bytes c d = Ok (fst bm).
Proof.
  intros K E. destruct d; cbn [keeps_data] in K; try (exfalso; apply K; exact I); cbn [rdata_to_bytes_compressed] in E;
    apply rbind_ok in E; destruct E as (b & E & E'); apply Ok_inj in E'; subst bm; exact E.
Qed.
Lemma keeps_dec d : keeps_data d \/ ~ keeps_data d.
Proof.
  destruct d; cbn [keeps_data]; try (left; exact I); try (right; exact (fun H => H)).
  - induction x as [|y l [IH|IH]]; [left; constructor| |right; intros H; apply IH, (Forall_inv_tail H)].
    destruct (Nat.leb_spec (length y) 255) as [L|L]; [left; constructor; [unfold short; lia|exact IH]|right; intros H; apply Forall_inv in H; unfold short in H; lia].
  - unfold short. lia.
Qed.

Section Back.
  Context (c : cfg) (h : hasher) (U : fqdn -> Prop) (NC : no_collision h U).
  Notation dict := (dict_ok h U 191).

  Lemma record_back w m r b m' suf e : names_in U (rr_names r) -> dict w m -> rr_to_bytes_compressed c h r m (length w) = Ok (b, m') ->
    N.of_nat (length w + length b) <= 16384 -> byte_list (w ++ b ++ suf) -> allocatable (w ++ b ++ suf) -> record_at c (w ++ b ++ suf) (length w) r e -> rr_ok c r.
  Proof.
    intros S DI E L B A R. assert (Lw : (length w <= length (w ++ b ++ suf))%nat) by (rewrite app_length; lia).
    destruct (record_at_ok c _ _ r e B A Lw R) as (H & T & _ & F). split; [exact H|]. split; [exact T|].
    destruct (keeps_dec (rr_data r)) as [K|K]; [apply F, K|].
    unfold rr_to_bytes_compressed in E. destruct (fqdn_to_bytes_compressed h (rr_name r) m (length w)) as [nb m1] eqn:E1.
    apply rbind_ok in E. destruct E as (dm & E2 & E). apply Ok_inj in E. injection E as Eb _. pose proof (uncompressed _ _ _ _ _ _ K E2) as Ed. set (db := fst dm) in *.
    assert (LB : (length nb + 10 + length db = length b)%nat) by (rewrite <- Eb, !app_length, !be_length; lia).
    destruct (compressed_fqdn h U NC w m (rr_name r) nb m1) as [RN _]; [apply H|apply (S (rr_name r)); left; reflexivity|exact DI|exact E1|lia|].
    assert (Eb' : b = nb ++ rr_head_bytes c r ++ be 2 (len16 (length db)) ++ db) by (rewrite <- Eb; unfold rr_head_bytes; rewrite <- !app_assoc; reflexivity). clear Eb.
    assert (L16 : len16 (length db) = N.of_nat (length db)) by (apply len16_id; lia).
    assert (Lh : length (rr_head_bytes c r) = 8%nat) by (unfold rr_head_bytes; rewrite !app_length, !be_length; reflexivity).
    destruct R as (k & v & len & N1 & _ & _ & _ & _ & _ & _ & _ & Ul & Ee & Le & D).
    assert (k = (length w + length nb)%nat) as ->.
    { specialize (RN (rr_head_bytes c r ++ be 2 (len16 (length db)) ++ db ++ suf)). Transparent reads. unfold reads in RN. Opaque reads.
      replace (w ++ nb ++ rr_head_bytes c r ++ be 2 (len16 (length db)) ++ db ++ suf) with (w ++ b ++ suf) in RN by (rewrite Eb', <- !app_assoc; reflexivity).
      apply extract_fqdn_iff in RN; [|exact B]. apply (name_at_unique _ _ _ _ _ _ B N1 RN). }
    set (pre := w ++ nb ++ rr_head_bytes c r ++ be 2 (len16 (length db))). assert (Dx : w ++ b ++ suf = pre ++ db ++ suf) by (unfold pre; rewrite Eb', <- !app_assoc; reflexivity).
    assert (Lp : length pre = (length w + length nb + 10)%nat) by (unfold pre; rewrite !app_length, Lh, be_length; lia).
    assert (EN : len = N.of_nat (length db)).
    { destruct Ul as (x & y & U1 & _ & U2 & _ & ->). rewrite <- L16. pose proof (len16_lt (length db)) as Lt. set (n := len16 (length db)) in *.
      replace (w ++ b ++ suf) with ((w ++ nb ++ rr_head_bytes c r) ++ be 2 n ++ db ++ suf) in U1, U2 by (rewrite Eb', <- !app_assoc; reflexivity).
      rewrite nth_error_app2 in U1, U2 by (rewrite !app_length; lia). rewrite !app_length, Lh in U1, U2.
      match type of U1 with nth_error _ ?z = _ => replace z with 0%nat in U1 by lia end.
      match type of U2 with nth_error _ ?z = _ => replace z with 1%nat in U2 by lia end.
      Transparent be. cbn in U1, U2. Opaque be. injection U1 as <-. injection U2 as <-. change (256 ^ 1) with 256. change (256 ^ 0) with 1. lia. }
    subst len. rewrite Nnat.Nat2N.id, <- Lp in Ee. rewrite Ee, <- Lp, Dx in D. rewrite Dx in B, A.
    replace (firstn (length pre + length db) (pre ++ db ++ suf)) with (pre ++ db) in D by (rewrite app_assoc, <- app_length, firstn_app, firstn_all, Nat.sub_diag, firstn_O, app_nil_r; reflexivity).
    rewrite (proj1 (proj2 (proj2 H))) in D. rewrite app_assoc in B, A. revert D. apply rdata_exact; [exact T|exact Ed|apply Forall_app in B; apply B| |lia].
    unfold allocatable in *. rewrite app_length in A. lia.
  Qed.
  Lemma records_back rs : names_in U (flat_map rr_names rs) -> forall w m w' m' suf e, dict w m -> records_compressed c h rs w m = Ok (w', m') -> N.of_nat (length w') <= 16384 ->
    byte_list (w' ++ suf) -> allocatable (w' ++ suf) -> consecutive (record_at c (w' ++ suf)) (length w) rs e -> Forall (rr_ok c) rs.
  Proof.
    induction rs as [|r rs IH]; intros S w m w' m' suf e DI E L B A C; [constructor|]. cbn [records_compressed] in E.
    apply rbind_ok in E. destruct E as ([b m1] & E1 & E). cbn [fst snd] in E. destruct (records_prefix _ _ _ _ _ _ _ E) as [x Ex].
    inversion C as [|p y k l e' Hy _ C']; subst p y l e'. assert (Dx : w' ++ suf = w ++ b ++ x ++ suf) by (rewrite Ex, <- !app_assoc; reflexivity).
    assert (Lb : N.of_nat (length w + length b) <= 16384) by (rewrite Ex, !app_length in L; lia).
    assert (S1 : names_in U (rr_names r)) by (intros f I; apply S; cbn [flat_map]; apply in_or_app; left; exact I).
    assert (O : rr_ok c r). { apply (record_back w m r b m1 (x ++ suf) k S1 DI E1 Lb); rewrite <- Dx; assumption. }
    constructor; [exact O|]. destruct (compressed_rr c h U NC w m r b m1 O S1 DI E1 Lb) as [Rd D1].
    apply record_read in Hy. specialize (Rd (x ++ suf)). Transparent reads. unfold reads in Rd. Opaque reads. rewrite <- Dx, Hy in Rd. injection Rd as ->.
    rewrite <- app_length in C'. apply (IH (fun f I => S f (in_or_app _ _ _ (or_intror I))) _ _ _ _ _ _ D1 E L B A C').
  Qed.
  Lemma questions_back qs : Forall (question_ok c) qs -> names_in U (map q_name qs) -> forall w m w' m' suf e, dict w m -> questions_compressed c h qs w m = (w', m') -> N.of_nat (length w') <= 16384 ->
    consecutive (question_at c (w' ++ suf)) (length w) qs e -> e = length w' /\ dict w' m'.
  Proof.
    induction 1 as [|q qs Q _ IH]; intros S w m w' m' suf e DI E L C; cbn [questions_compressed] in E.
    - injection E as <- <-. inversion C. split; [reflexivity|exact DI].
    - destruct (question_to_bytes_compressed c h q m (length w)) as [b m1] eqn:E1. destruct (questions_prefix _ _ _ _ _ _ _ E) as [x Ex].
      inversion C as [|p y k l e' Hy _ C']; subst p y l e'. assert (Dx : w' ++ suf = w ++ b ++ x ++ suf) by (rewrite Ex, <- !app_assoc; reflexivity).
      assert (Lb : N.of_nat (length w + length b) <= 16384) by (rewrite Ex, !app_length in L; lia).
      destruct (compressed_question c h U NC w m q b m1 Q (S (q_name q) (or_introl eq_refl)) DI E1 Lb) as [Rd D1].
      apply question_read in Hy. specialize (Rd (x ++ suf)). Transparent reads. unfold reads in Rd. Opaque reads. rewrite <- Dx, Hy in Rd. injection Rd as ->.
      rewrite <- app_length in C'. apply (IH (fun f I => S f (or_intror I)) _ _ _ _ _ _ D1 E L C').
  Qed.
End Back.

Lemma packet_back c h p bs suf : hash_separates h (packet_names p) -> packet_to_bytes_compressed c h p = Ok bs -> N.of_nat (length bs) <= 16384 ->
  byte_list (bs ++ suf) -> allocatable (bs ++ suf) -> packet_try_from c (bs ++ suf) = Ok p -> packet_ok c p /\ counts_of p = true_counts p.
Proof.
  intros HS E L B A R. destruct (packet_parsed_records c _ p B A R) as (H & K & Q & _). split; [|exact K]. split; [exact H|]. split; [exact Q|].
  apply packet_iff in R; [|exact B]. destruct R as (e & _ & _ & _ & _ & _ & e1 & e2 & e3 & C1 & C2 & C3 & C4).
  pose proof (consecutive_app _ _ _ _ _ _ C2 (consecutive_app _ _ _ _ _ _ C3 C4)) as C. change (p_answers p ++ p_authorities p ++ p_additionals p) with (records_of p) in C.
  unfold packet_to_bytes_compressed in E. destruct (questions_compressed c h (p_questions p) (header_to_bytes (p_header p)) []) as [w0 m0] eqn:E0.
  assert (E' : exists m', records_compressed c h (records_of p) w0 m0 = Ok (bs, m')).
  { unfold records_of. rewrite !records_compressed_app. apply rbind_ok in E. destruct E as (s1 & E1 & E). rewrite E1. cbn [rbind]. rewrite records_compressed_app.
    apply rbind_ok in E. destruct E as (s2 & E2 & E). rewrite E2. cbn [rbind]. apply rbind_ok in E. destruct E as (s3 & E3 & E). rewrite E3. apply Ok_inj in E. exists (snd s3). rewrite <- E. destruct s3; reflexivity. }
  clear E. destruct E' as [m' E]. pose proof (names_in_self (packet_names p)) as S. destruct (records_prefix _ _ _ _ _ _ _ E) as [x Ex].
  assert (L0 : N.of_nat (length w0) <= 16384) by (rewrite Ex, app_length in L; lia).
  assert (Dx : bs ++ suf = w0 ++ x ++ suf) by (rewrite Ex, <- app_assoc; reflexivity). rewrite Dx in C1. rewrite <- (header_length (p_header p)) in C1.
  destruct (questions_back c h _ HS _ Q (fun f I => S f (in_or_app _ _ _ (or_introl I))) _ _ _ _ _ _ (dict_ok_nil _ _ _ _) E0 L0 C1) as [-> D0].
  apply (records_back c h _ HS _ (fun f I => S f (in_or_app _ _ _ (or_intror I))) _ _ _ _ _ _ D0 E L B A C).
Qed.

(** ** Plain *)
Lemma string_at_ext w s q v e : string_at w q v e -> string_at (w ++ s) q v e.
Proof.
  intros (O & L & V & ->). unfold octet_at in O. split; [unfold octet_at; rewrite nth_error_app1; [exact O|apply nth_error_Some; congruence]|].
  split; [rewrite app_length; lia|]. split; [|reflexivity]. unfold slice in *. rewrite skipn_app, firstn_app, skipn_length.
  replace (length v - (length w - (q + 1)))%nat with 0%nat by lia. cbn [firstn]. rewrite app_nil_r. exact V.
Qed.
Lemma plain_record_back c r b pre suf e : rr_to_bytes c r = Ok b -> data_16 c (rr_data r) -> (forall x, rr_data r = DSVCB x -> sv_params x = []) ->
  byte_list (pre ++ b ++ suf) -> allocatable (pre ++ b ++ suf) -> record_at c (pre ++ b ++ suf) (length pre) r e -> rr_plain_ok c r.
Proof.
  intros E W V B A R. assert (Lw : (length pre <= length (pre ++ b ++ suf))%nat) by (rewrite app_length; lia).
  destruct (record_at_ok c _ _ r e B A Lw R) as (H & T & _ & F).
  assert (O : rr_ok c r).
  { split; [exact H|]. split; [exact T|]. destruct (keeps_dec (rr_data r)) as [K|K]; [apply F, K|].
    destruct (plain_parts c r b T E) as (k & db & Ed & Eb & Sz). pose proof (W db Ed) as Wd.
    assert (L16 : len16 k = N.of_nat k) by (apply len16_id; destruct (rr_data r); cbn [size_error keeps_data] in *; try (exfalso; apply K; exact I); lia).
    destruct (record_frame c r r b pre suf (len16 k) db e (proj1 H) Eb (len16_lt k) B R) as (Dx & Ee & Le & D). cbv zeta in *. rewrite L16 in *. rewrite Nnat.Nat2N.id in Ee.
    set (p := pre ++ fqdn_to_bytes (rr_name r) ++ rr_head_bytes c r ++ be 2 (N.of_nat k)) in *. rewrite (proj1 (proj2 (proj2 H))) in D.
    assert (Z : k = length db -> rdata_fits c (rr_data r)).
    { intros ->. rewrite Ee, Dx in D. replace (firstn (length p + length db) (p ++ db ++ suf)) with (p ++ db) in D by (rewrite app_assoc, <- app_length, firstn_app, firstn_all, Nat.sub_diag, firstn_O, app_nil_r; reflexivity).
      rewrite Dx in B, A. rewrite app_assoc in B, A. revert D. apply rdata_exact; [exact T|exact Ed|apply Forall_app in B; apply B| |exact Wd].
      unfold allocatable in *. rewrite app_length in A. lia. }
    destruct (rr_data r) as [| | | | | | | | | | | | | | | | | | | | | | | | | | | | | | | | | | | | y] eqn:X; cbn [size_error keeps_data] in *; try (exfalso; apply K; exact I); try (apply Z; lia).
    exfalso. apply K. cbn [rdata_type] in D. destruct (rdata_from c CAA _) as [q b'] eqn:ER. cbn [fst] in D. subst q. unfold rdata_from, pmap in ER. apply bind_ok in ER. destruct ER as (z & b1 & E1 & E2).
    cbn [ret] in E2. injection E2 as -> <-. set (w := firstn e (pre ++ b ++ suf)) in *.
    assert (Bw : byte_list w) by (unfold w; apply byte_list_firstn, B). assert (Lp : (length p <= length w)%nat) by (unfold w; rewrite firstn_length_le by exact Le; lia).
    destruct (caa_got _ _ _ _ Bw Lp E1) as (f & raw & e0 & _ & S & _ & _ & ET & _). apply (string_at_ext _ (skipn e (pre ++ b ++ suf))) in S. unfold w in S. rewrite firstn_skipn, Dx in S.
    cbn [rdata_to_bytes] in Ed. apply Ok_inj in Ed. subst db. unfold caa_to_bytes in S. destruct y as [cr tag v]. cbn [caa_tag caa_value caa_critical] in *.
    replace (p ++ ([if cr then 128 else 0] ++ [len8 (length tag)] ++ tag ++ v) ++ suf) with ((p ++ [if cr then 128 else 0]) ++ char_string tag ++ v ++ suf) in S by (unfold char_string; rewrite <- !app_assoc; reflexivity).
    replace (length p + 1)%nat with (length (p ++ [if cr then 128 else 0])) in S by (rewrite app_length; reflexivity).
    destruct (string_head _ _ _ _ _ S) as (H1 & H2 & _). apply (long_never tag raw (v ++ suf)); try assumption; [|congruence]. rewrite ET. apply utf8_lossy_text. }
  split; [exact O|]. split; [|exact W]. destruct (size_exact_dec (rr_data r)) as [S|S]; [exact S|exfalso].
  revert R. apply short_record; try assumption. destruct (rr_data r); cbn [size_exact too_short] in *; try (exfalso; apply S; exact I); try exact I; [|exact S]. apply S, V. reflexivity.
Qed.
Lemma plain_records_back c rs bss : Forall2 (fun r b => rr_to_bytes c r = Ok b) rs bss -> Forall (fun r => data_16 c (rr_data r)) rs -> Forall (fun r => forall x, rr_data r = DSVCB x -> sv_params x = []) rs ->
  forall pre suf e, byte_list (pre ++ concat bss ++ suf) -> allocatable (pre ++ concat bss ++ suf) -> consecutive (record_at c (pre ++ concat bss ++ suf)) (length pre) rs e -> Forall (rr_plain_ok c) rs.
Proof.
  induction 1 as [|r b rs bss E F IH]; intros W V pre suf e B A C; [constructor|]. cbn [concat] in *.
  assert (D : pre ++ (b ++ concat bss) ++ suf = pre ++ b ++ concat bss ++ suf) by (rewrite <- app_assoc; reflexivity). rewrite D in B, A, C.
  inversion C as [|p y k l e' Hy _ C']; subst p y l e'. assert (O : rr_plain_ok c r) by (apply (plain_record_back c r b pre (concat bss ++ suf) k E (Forall_inv W) (Forall_inv V) B A Hy)).
  constructor; [exact O|]. destruct (reads_rr c r O) as (b' & Eb & Rd). rewrite E in Eb. apply Ok_inj in Eb. subst b'. specialize (Rd pre (concat bss ++ suf)).
  apply record_read in Hy. Transparent reads. unfold reads in Rd. Opaque reads. rewrite Hy in Rd. injection Rd as ->. rewrite <- app_length in C'.
  assert (D' : pre ++ b ++ concat bss ++ suf = (pre ++ b) ++ concat bss ++ suf) by apply app_assoc. rewrite D' in B, A, C'.
  apply (IH (Forall_inv_tail W) (Forall_inv_tail V) (pre ++ b) suf e B A C').
Qed.
Lemma recount_bytes c p : packet_to_bytes c (recount p) = packet_to_bytes c p.
Proof. reflexivity. Qed.
Lemma plain_back c p bs suf : packet_to_bytes c p = Ok bs -> Forall (fun r => data_16 c (rr_data r)) (records_of p) -> Forall (fun r => forall x, rr_data r = DSVCB x -> sv_params x = []) (records_of p) ->
  byte_list (bs ++ suf) -> allocatable (bs ++ suf) -> packet_try_from c (bs ++ suf) = Ok (recount p) -> packet_plain_ok c (recount p).
Proof.
  intros E W V B A R. destruct (packet_parsed_records c _ _ B A R) as (H & K & Q & _). split; [exact H|]. split; [exact Q|].
  apply packet_iff in R; [|exact B]. destruct R as (e & _ & _ & _ & _ & _ & e1 & e2 & e3 & C1 & C2 & C3 & C4).
  pose proof (consecutive_app _ _ _ _ _ _ C2 (consecutive_app _ _ _ _ _ _ C3 C4)) as C. cbn [recount p_questions p_answers p_authorities p_additionals] in C, C1, Q. change (records_of (recount p)) with (records_of p).
  change (p_answers p ++ p_authorities p ++ p_additionals p) with (records_of p) in C.
  unfold packet_to_bytes in E. apply rbind_ok in E. destruct E as (n & _ & E).
  apply rbind_ok in E. destruct E as (ba & Ea & E). apply rbind_ok in E. destruct E as (bn & En & E). apply rbind_ok in E. destruct E as (bd & Ed & E). apply Ok_inj in E.
  apply concat_res_ok in Ea, En, Ed. destruct Ea as (xa & Fa & ->), En as (xn & Fn & ->), Ed as (xd & Fd & ->).
  assert (G : Forall2 (fun r b => rr_to_bytes c r = Ok b) (records_of p) (xa ++ xn ++ xd)) by (unfold records_of; repeat apply Forall2_app; assumption).
  assert (H12 : length (patched_header p) = 12%nat) by (rewrite patched_header_eq; apply header_length).
  set (qb := concat (map (question_to_bytes c) (p_questions p))).
  assert (D : bs ++ suf = (patched_header p ++ qb) ++ concat (xa ++ xn ++ xd) ++ suf) by (unfold qb; rewrite <- E, !concat_app, flat_map_concat_map, <- !app_assoc; reflexivity).
  rewrite <- H12 in C1.
  destruct (walk _ (question_try_from c) (bs ++ suf) (fun p x e L => question_iff c _ p x e B L) (map (question_to_bytes c) (p_questions p)) (p_questions p)) with (pre := patched_header p) (suf := concat (xa ++ xn ++ xd) ++ suf) (zs := p_questions p) (e := e1) as (ys & Eq & Cq);
    [clear - Q; induction Q as [|q qs H F IH]; constructor; [intros; apply reads_question, H|exact IH]|rewrite D, <- !app_assoc; reflexivity|exact C1|apply le_n|].
  assert (ys = []) as -> by (apply (f_equal (@length _)) in Eq; rewrite app_length in Eq; destruct ys; [reflexivity|cbn [length] in Eq; lia]).
  inversion Cq as [z Z|]; subst z. subst e1. fold qb in C. rewrite <- app_length, D in C. rewrite D in B, A.
  apply (plain_records_back c _ _ G W V _ _ _ B A C).
Qed.
