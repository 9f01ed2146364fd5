(** * Property C119: records that are held back in caches *)
From Coq Require Import Lia ZifyBool ZifyNat ZifyN.
From Verif Require Import Base Buffer Fqdn Header Types RDataBasic Svcb RDataSec RData Packet Api BaseFacts FqdnFacts CompressSpec HeaderSpec CodeSpec RDataSpec RDataReads SvcbParse RecordSpec PacketFacts PacketProps
  MdnsFacts AnnounceFacts PropName PropRecord PropPacket PropFill.

(** ** What a user writes

    A cache parses a message, holds it for [e] seconds and sends it on: records whose time is over are left out and the others say how much of it is left
    (RFC 1035, 3.2.1 and 7.4).  The TTL field of an OPT record is not a time (RFC 6891, 6.1.3), so that record stays as it is. *)
Definition is_opt (r : rr) : bool := match rr_type r with OPT => true | _ => false end.
Definition kept (e : N) (rs : list rr) : list rr :=
  map (fun r => if is_opt r then r else rr_set_ttl r (rr_ttl r - e)) (filter (fun r => is_opt r || (e <? rr_ttl r)) rs).
(** Each section is taken out, gone through and put back.  First answers, then authorities, then additionals; *)
Definition held_in_order (e : N) (p : packet) : packet :=
  let '(an, p) := take_answers p in let p := set_answers p (kept e an) in
  let '(au, p) := take_authorities p in let p := set_authorities p (kept e au) in
  let '(ad, p) := take_additionals p in set_additionals p (kept e ad).
(** or with the authorities before the answers. *)
Definition held (e : N) (p : packet) : packet :=
  let '(au, p) := take_authorities p in let p := set_authorities p (kept e au) in
  let '(an, p) := take_answers p in let p := set_answers p (kept e an) in
  let '(ad, p) := take_additionals p in set_additionals p (kept e ad).

(** What the next one is to receive. *)
Definition counted_down (e : N) (p q : packet) : Prop :=
  p_questions q = p_questions p /\ p_answers q = kept e (p_answers p) /\ p_authorities q = kept e (p_authorities p) /\ p_additionals q = kept e (p_additionals p) /\
  id (p_header q) = id (p_header p) /\ hflags (p_header q) = hflags (p_header p) /\ counts_of q = true_counts q.

(** Caches one behind the other, each with its own hash function, the time it holds the message, and the form it writes. *)
Inductive cached (c : cfg) (plain : bool) (e : N) (d : bytes) : bytes -> Prop :=
| cached_plain p out : plain = true -> packet_try_from c d = Ok p -> packet_to_bytes c (held e p) = Ok out -> cached c plain e d out
| cached_compressed p h out : packet_try_from c d = Ok p -> hash_separates h (packet_names (held e p)) -> packet_to_bytes_compressed c h (held e p) = Ok out ->
    N.of_nat (length out) <= 16384 -> cached c plain e d out.
Inductive caches (c : cfg) (plain : bool) : list N -> bytes -> bytes -> Prop :=
| no_cache d : caches c plain [] d d
| one_more e es d m out : cached c plain e d m -> caches c plain es m out -> caches c plain (e :: es) d out.
Definition total (es : list N) : N := fold_right N.add 0 es.

(** ** Facts *)
Lemma kept_length e rs : (length (kept e rs) <= length rs)%nat.
Proof. unfold kept. rewrite map_length. induction rs as [|r rs IH]; cbn [filter length]; [lia|]. destruct (_ || _); cbn [length]; lia. Qed.
Lemma kept_cons e r rs : kept e (r :: rs) =
  if is_opt r then r :: kept e rs else if e <? rr_ttl r then rr_set_ttl r (rr_ttl r - e) :: kept e rs else kept e rs.
Proof. unfold kept. cbn [filter]. destruct (is_opt r) eqn:O, (e <? rr_ttl r); cbn [orb map]; rewrite ?O; reflexivity. Qed.
Lemma kept_kept a b rs : kept b (kept a rs) = kept (a + b) rs.
Proof.
  induction rs as [|r rs IH]; [reflexivity|]. rewrite !kept_cons. destruct (is_opt r) eqn:O.
  - rewrite kept_cons, O, IH. reflexivity.
  - destruct (a <? rr_ttl r) eqn:L.
    + rewrite kept_cons, IH. change (is_opt (rr_set_ttl r (rr_ttl r - a))) with (is_opt r). rewrite O. change (rr_ttl (rr_set_ttl r (rr_ttl r - a))) with (rr_ttl r - a).
      destruct (b <? rr_ttl r - a) eqn:L1, (a + b <? rr_ttl r) eqn:L2; try lia; [|reflexivity]. f_equal. unfold rr_set_ttl. cbn [rr_name rr_type rr_flush rr_class rr_ttl rr_data]. f_equal. lia.
    + destruct (a + b <? rr_ttl r) eqn:L2; [lia|exact IH].
Qed.
Lemma kept_ok (K : rr -> Prop) e rs : (forall r n, n <= rr_ttl r -> K r -> K (rr_set_ttl r n)) -> Forall K rs -> Forall K (kept e rs).
Proof.
  intros M F. unfold kept. induction F as [|r rs H F IH]; [constructor|]. cbn [filter]. destruct (_ || _); [|exact IH]. constructor; [|exact IH].
  destruct (is_opt r); [exact H|]. apply M; [lia|exact H].
Qed.
Lemma ttl_ok c r n : n <= rr_ttl r -> rr_ok c r -> rr_ok c (rr_set_ttl r n).
Proof.
  intros L ((H1 & H2 & H3 & H4 & H5 & H6) & T & F). split; [|split; [exact T|exact F]]. split; [exact H1|]. split; [exact H2|]. split; [exact H3|]. split; [exact H4|].
  split; [|exact H6]. unfold U32 in *. cbn [rr_ttl rr_set_ttl]. lia.
Qed.
Lemma ttl_plain_ok c r n : n <= rr_ttl r -> rr_plain_ok c r -> rr_plain_ok c (rr_set_ttl r n).
Proof. intros L (O & X). split; [apply ttl_ok; assumption|exact X]. Qed.
Opaque kept.
(** A packet as it is received. *)
Definition sound (c : cfg) (plain : bool) (p : packet) : Prop :=
  header_typed (p_header p) /\ counts_of p = true_counts p /\ Forall (question_ok c) (p_questions p) /\
  Forall (fun r => if plain then rr_plain_ok c r else rr_ok c r) (records_of p).
Lemma sound_ok c plain p : sound c plain p -> packet_ok c p.
Proof. intros (H & _ & Q & R). split; [exact H|]. split; [exact Q|]. eapply Forall_impl; [|exact R]. intros r X. destruct plain; [apply X|exact X]. Qed.
Lemma sound_small c plain p : sound c plain p -> small_sections p.
Proof. intros (H & K & _). apply counts_small; assumption. Qed.
Lemma held_is c plain e p : sound c plain p -> sound c plain (held e p) /\ counted_down e p (held e p).
Proof.
  intros S. pose proof (sound_small c plain p S) as (Lq & La & Ln & Ld). destruct S as (H & K & Q & R). destruct p as [[i f q a n d] qs an au ad].
  unfold counts_of, true_counts, header_typed in *. cbn [p_header p_questions p_answers p_authorities p_additionals id hflags ques_count ans_count auth_count add_count] in *.
  injection K as -> -> -> ->. pose proof (kept_length e an) as Xa. pose proof (kept_length e au) as Xn. pose proof (kept_length e ad) as Xd.
  assert (C : counts_of (held e (mkPacket (mkheader i f (N.of_nat (length qs)) (N.of_nat (length an)) (N.of_nat (length au)) (N.of_nat (length ad))) qs an au ad)) =
    (N.of_nat (length qs), N.of_nat (length (kept e an)), N.of_nat (length (kept e au)), N.of_nat (length (kept e ad)))).
  { unfold counts_of. cbn. rewrite !len16_id by lia. reflexivity. }
  split.
  - split; [|split; [exact C|split; [exact Q|]]].
    + unfold header_typed. cbn. cbn in H. rewrite !len16_id by lia. lia.
    + cbn [held records_of p_answers p_authorities p_additionals]. unfold records_of in *. cbn in *. rewrite !Forall_app in *. destruct R as (R1 & R2 & R3).
      assert (M : forall r n, n <= rr_ttl r -> (if plain then rr_plain_ok c r else rr_ok c r) -> (if plain then rr_plain_ok c (rr_set_ttl r n) else rr_ok c (rr_set_ttl r n))).
      { intros r n L. destruct plain; [apply ttl_plain_ok, L|apply ttl_ok, L]. }
      split; [|split]; apply (kept_ok (fun r => if plain then rr_plain_ok c r else rr_ok c r)); assumption.
  - unfold counted_down. rewrite C. repeat (split; [reflexivity|]). reflexivity.
Qed.
Lemma counted_unique e p q q' : counted_down e p q -> counted_down e p q' -> q = q'.
Proof.
  destruct q as [[i f n1 n2 n3 n4] qs an au ad], q' as [[i' f' m1 m2 m3 m4] qs' an' au' ad'].
  unfold counted_down, counts_of, true_counts. cbn [p_header p_questions p_answers p_authorities p_additionals id hflags ques_count ans_count auth_count add_count].
  intros (-> & -> & -> & -> & -> & -> & K) (-> & -> & -> & -> & -> & -> & K'). injection K as -> -> -> ->. injection K' as -> -> -> ->. reflexivity.
Qed.
Lemma counted_twice a b p q r : counted_down a p q -> counted_down b q r -> counted_down (a + b) p r.
Proof.
  intros (A1 & A2 & A3 & A4 & A5 & A6 & A7) (B1 & B2 & B3 & B4 & B5 & B6 & B7). unfold counted_down. rewrite B1, B2, B3, B4, B5, B6, A1, A2, A3, A4, A5, A6, !kept_kept. repeat (split; [reflexivity|]). exact B7.
Qed.
Lemma cached_reads c plain e d m p : packet_try_from c d = Ok p -> sound c plain p -> cached c plain e d m -> packet_try_from c m = Ok (held e p).
Proof.
  intros E S C. destruct (held_is c plain e p S) as (S' & _). pose proof S' as (_ & K & _).
  destruct C as [p' out -> E' W|p' h out E' HS W L]; rewrite E in E'; apply Ok_inj in E'; subst p'.
  - destruct (packet_roundtrip c (held e p)) as (bs & W' & R); [|exact (sound_small _ _ _ S')|].
    + destruct S' as (X1 & _ & X2 & X3). exact (conj X1 (conj X2 X3)).
    + rewrite W in W'. apply Ok_inj in W'. subst bs. specialize (R []). rewrite app_nil_r, recount_same in R by exact K. exact R.
  - rewrite <- (app_nil_r out). exact (packet_compressed c h (held e p) out (sound_ok _ _ _ S') K HS W L []).
Qed.
Lemma chain_reads c plain e es d out p : packet_try_from c d = Ok p -> sound c plain p -> caches c plain (e :: es) d out ->
  exists q, packet_try_from c out = Ok q /\ counted_down (e + total es) p q.
Proof.
  revert e d p. induction es as [|e' es IH]; intros e d p E S C; inversion C as [|? ? ? m ? C1 C2]; subst; pose proof (cached_reads c plain e d m p E S C1) as R;
    destruct (held_is c plain e p S) as (S' & D).
  - inversion C2; subst. exists (held e p). split; [exact R|]. cbn [total fold_right]. rewrite N.add_0_r. exact D.
  - destruct (IH e' m (held e p) R S' C2) as (q & Eq & Dq). exists q. split; [exact Eq|]. exact (counted_twice _ _ _ _ _ D Dq).
Qed.
Lemma parsed_sound c (plain : bool) d p : byte_list d -> allocatable d -> packet_try_from c d = Ok p ->
  Forall (fun r => keeps_data (rr_data r) /\ (plain = true -> size_exact (rr_data r) /\ forall db, rdata_to_bytes c (rr_data r) = Ok db -> N.of_nat (length db) <= 65535)) (records_of p) ->
  sound c plain p.
Proof.
  intros B A E F. destruct (packet_parsed_records c d p B A E) as (H & K & Q & R). split; [exact H|]. split; [exact K|]. split; [exact Q|].
  rewrite Forall_forall in *. intros r I. destruct (R r I) as (R1 & R2 & _ & R4), (F r I) as (F1 & F2).
  assert (O : rr_ok c r) by (split; [exact R1|split; [exact R2|exact (R4 F1)]]). destruct plain; [|exact O]. split; [exact O|exact (F2 eq_refl)].
Qed.

(** ** Theorems *)

(** Through any number of caches, whatever forms they write, the last one delivers what the first one received, with all waiting times taken off. *)
Theorem C119_caches_partial : forall (c : cfg) (e : N) (es : list N) (d out : bytes) (p : packet), byte_list d -> N.of_nat (length d) <= 9223372036854775807 -> packet_try_from c d = Ok p ->
  Forall (fun r => keeps_data (rr_data r) /\ size_exact (rr_data r) /\ forall db, rdata_to_bytes c (rr_data r) = Ok db -> N.of_nat (length db) <= 65535) (records_of p) ->
  caches c true (e :: es) d out -> exists q, packet_try_from c out = Ok q /\ counted_down (e + total es) p q.
Proof.
  intros c e es d out p B A E F H. eapply chain_reads; [exact E| |exact H]. apply (parsed_sound c true d p B A E).
  eapply Forall_impl; [|exact F]. intros r (X & Y). split; [exact X|]. intros _. exact Y.
Qed.
(** With compressed messages only, all kinds of records but SSHFP and text that grew when it was repaired; among them OPT. *)
Theorem C119_short_partial : forall (c : cfg) (e : N) (es : list N) (d out : bytes) (p : packet), byte_list d -> N.of_nat (length d) <= 9223372036854775807 -> packet_try_from c d = Ok p ->
  Forall (fun r => keeps_data (rr_data r)) (records_of p) ->
  caches c false (e :: es) d out -> exists q, packet_try_from c out = Ok q /\ counted_down (e + total es) p q.
Proof.
  intros c e es d out p B A E F H. eapply chain_reads; [exact E| |exact H]. apply (parsed_sound c false d p B A E).
  eapply Forall_impl; [|exact F]. intros r X. split; [exact X|discriminate].
Qed.
(** No record lives longer in the caches than it was given: what arrives at the end was in the message, with a TTL larger by the time that has passed. *)
Theorem C119_no_longer : forall (e : N) (rs : list rr) (r : rr), In r (kept e rs) ->
  In r rs /\ rr_type r = OPT \/ 0 < rr_ttl r /\ In (rr_set_ttl r (rr_ttl r + e)) rs.
Proof.
  Transparent kept. intros e rs r I. unfold kept in I. apply in_map_iff in I. destruct I as (r0 & <- & I). apply filter_In in I. destruct I as (I & L). destruct (is_opt r0) eqn:O.
  - left. split; [exact I|]. unfold is_opt in O. destruct (rr_type r0); try discriminate; reflexivity.
  - right. cbn [orb] in L. split; [cbn [rr_ttl rr_set_ttl]; lia|]. replace (rr_set_ttl _ _) with r0; [exact I|]. destruct r0 as [nm ty fl cl tl dt]. unfold rr_set_ttl. cbn [rr_name rr_type rr_flush rr_class rr_ttl rr_data] in *. f_equal. lia.
Qed.
Opaque kept.
(** In plain form the order in which the sections are gone through makes no difference. *)
Theorem C119_plain_order : forall (c : cfg) (e : N) (p : packet), packet_to_bytes c (held_in_order e p) = packet_to_bytes c (held e p).
Proof. intros c e [[i f q a n d] qs an au ad]. reflexivity. Qed.
(** In compressed form it does: with the answers first, no answer arrives.  Taking out the authorities sets the count of the answers to 0; the receiver reads the answers as
    authorities, as many as there were of those. *)
Theorem C119_order_refuted : forall (c : cfg) (h : hasher) (e : N) (d out : bytes) (p : packet), byte_list d -> N.of_nat (length d) <= 9223372036854775807 -> packet_try_from c d = Ok p ->
  Forall (fun r => keeps_data (rr_data r)) (records_of p) -> hash_separates h (packet_names (held_in_order e p)) ->
  packet_to_bytes_compressed c h (held_in_order e p) = Ok out -> N.of_nat (length out) <= 16384 ->
  let left := kept e (p_answers p) ++ kept e (p_authorities p) ++ kept e (p_additionals p) in
  exists q, packet_try_from c out = Ok q /\ p_questions q = p_questions p /\ p_answers q = [] /\
    p_authorities q = firstn (length (kept e (p_authorities p))) left /\
    p_additionals q = firstn (length (kept e (p_additionals p))) (skipn (length (kept e (p_authorities p))) left).
Proof.
  intros c h e d out p B A E F HS W L left. assert (S : sound c false p).
  { apply (parsed_sound c false d p B A E). eapply Forall_impl; [|exact F]. intros r X. split; [exact X|discriminate]. }
  clear d B A E F. pose proof (sound_small c false p S) as (Lq & La & Ln & Ld). destruct (held_is c false e p S) as (S' & _).
  destruct S as (H & K & Q & _). destruct S' as (_ & _ & _ & R). destruct p as [[i f q a n d] qs an au ad].
  unfold counts_of, true_counts, header_typed in *. cbn [p_header p_questions p_answers p_authorities p_additionals id hflags ques_count ans_count auth_count add_count] in *.
  injection K as -> -> -> ->. pose proof (kept_length e an) as Xa. pose proof (kept_length e au) as Xn. pose proof (kept_length e ad) as Xd.
  change (records_of (held e _)) with left in R.
  set (n := length (kept e au)) in *. set (k := length (kept e ad)) in *.
  assert (Ll : (n + k <= length left)%nat) by (unfold left; rewrite !app_length; unfold n, k; lia).
  set (ns := firstn n left). set (ds := firstn k (skipn n left)). set (rest := skipn k (skipn n left)).
  assert (Sp : left = ns ++ ds ++ rest) by (unfold ns, ds, rest; rewrite !firstn_skipn; reflexivity).
  assert (Nn : length ns = n) by (unfold ns; rewrite firstn_length; lia). assert (Nd : length ds = k) by (unfold ds; rewrite firstn_length, skipn_length; lia).
  set (hd := mkheader i f (N.of_nat (length qs)) 0 (N.of_nat n) (N.of_nat k)).
  set (p2 := mkPacket hd qs [] ns ds).
  assert (Wp : forall x y z, packet_to_bytes_compressed c h (mkPacket hd qs x y z) =
    let! s := records_compressed c h (x ++ y ++ z) (fst (questions_compressed c h qs (header_to_bytes hd) [])) (snd (questions_compressed c h qs (header_to_bytes hd) [])) in Ok (fst s)).
  { intros x y z. unfold packet_to_bytes_compressed. cbn [p_header p_questions p_answers p_authorities p_additionals]. destruct (questions_compressed c h qs (header_to_bytes hd) []) as [b m]. cbn [fst snd].
    rewrite records_app. destruct (records_compressed c h x b m); cbn [rbind]; [|reflexivity..]. rewrite records_app. destruct (records_compressed c h y _ _); reflexivity. }
  assert (Hd : held_in_order e (mkPacket (mkheader i f (N.of_nat (length qs)) (N.of_nat (length an)) (N.of_nat (length au)) (N.of_nat (length ad))) qs an au ad) =
    mkPacket hd qs (kept e an) (kept e au) (kept e ad)).
  { unfold held_in_order, hd, n, k. cbn. unfold set_additionals. cbn. rewrite !len16_id by lia. reflexivity. }
  rewrite Hd in W, HS. rewrite Wp in W. fold left in W. rewrite Sp in W. rewrite app_assoc, records_app in W.
  apply rbind_ok in W. destruct W as ([w m] & W & Wo). apply Ok_inj in Wo. cbn [fst] in Wo. subst w. apply rbind_ok in W. destruct W as ([w1 m1] & W1 & W2). cbn [fst snd] in W2.
  destruct (records_prefix _ _ _ _ _ _ _ W2) as [suf ->]. exists p2. split; [|repeat split].
  apply (packet_compressed c h p2 w1).
  - split; [|split; [exact Q|]].
    + unfold header_typed, p2, hd. cbn. cbn in H. unfold n, k. lia.
    + unfold p2, records_of. cbn [p_answers p_authorities p_additionals app]. rewrite Sp, app_assoc in R. apply Forall_app in R. apply R.
  - unfold p2, counts_of, true_counts, hd. cbn [p_header p_questions p_answers p_authorities p_additionals ques_count ans_count auth_count add_count length]. rewrite Nn, Nd. reflexivity.
  - eapply separates_sub; [exact HS|]. unfold packet_names, p2, records_of. cbn [p_questions p_answers p_authorities p_additionals app]. fold left. rewrite Sp.
    intros x I. apply in_app_or in I. apply in_or_app. destruct I as [I|I]; [left; exact I|right]. rewrite app_assoc, flat_map_app. apply in_or_app. left. exact I.
  - unfold p2. rewrite Wp. cbn [app]. rewrite W1. reflexivity.
  - rewrite app_length in L. lia.
Qed.
Transparent kept.
(** Non-trivial: a compressed message through three caches in both ways, the MX record (TTL 5) kept for 4 seconds and dropped after 5, and two answers lost in the other order. *)
Definition waiting : bytes := ex_bytes (packet_to_bytes_compressed ex_cfg ex_hash ex_packet).
Example C119_ex : byte_list waiting /\ N.of_nat (length waiting) <= 9223372036854775807 /\ packet_try_from ex_cfg waiting = Ok ex_packet /\
  Forall (fun r => keeps_data (rr_data r) /\ size_exact (rr_data r) /\ forall db, rdata_to_bytes ex_cfg (rr_data r) = Ok db -> N.of_nat (length db) <= 65535) (records_of ex_packet) /\
  (exists out, caches ex_cfg true [10; 20; 30] waiting out) /\ (exists out, caches ex_cfg false [10; 20; 30] waiting out) /\
  length (kept 4 (p_additionals ex_packet)) = 1%nat /\ kept 5 (p_additionals ex_packet) = [] /\
  hash_separates ex_hash (packet_names (held_in_order 3 ex_packet)) /\
  exists out q, packet_to_bytes_compressed ex_cfg ex_hash (held_in_order 3 ex_packet) = Ok out /\ N.of_nat (length out) <= 16384 /\
    packet_try_from ex_cfg out = Ok q /\ p_answers q = [] /\ length (kept 3 (p_answers ex_packet)) = 2%nat.
Proof.
  destruct C37_ex as (B & A & E & K & S & H). fold waiting in B, A, E. split; [exact B|]. split; [exact A|]. split; [exact E|].
  assert (SP : forall x, incl (packet_names x) (packet_names ex_packet) -> hash_separates ex_hash (packet_names x)) by (intros x; apply separates_sub, H).
  split; [rewrite Forall_forall in *; intros r I; split; [apply K, I|apply S, I]|].
  split; [|split].
  - eexists. eapply one_more; [eapply cached_plain; [reflexivity|exact E|vm_compute; reflexivity]|].
    eapply one_more; [eapply cached_compressed with (h := ex_hash); [vm_compute; reflexivity|apply SP; vm_compute; intuition congruence|vm_compute; reflexivity|vm_compute; discriminate]|].
    eapply one_more; [eapply cached_plain; [reflexivity|vm_compute; reflexivity|vm_compute; reflexivity]|]. constructor.
  - eexists. do 3 (eapply one_more; [eapply cached_compressed with (h := ex_hash); [vm_compute; reflexivity|apply SP; vm_compute; intuition congruence|vm_compute; reflexivity|vm_compute; discriminate]|]). constructor.
  - split; [reflexivity|]. split; [reflexivity|]. split; [apply SP; vm_compute; intuition congruence|]. do 2 eexists. split; [vm_compute; reflexivity|]. split; [vm_compute; discriminate|].
    split; [vm_compute; reflexivity|]. split; reflexivity.
Qed.
Print Assumptions C119_caches_partial.
Print Assumptions C119_short_partial.
Print Assumptions C119_no_longer.
Print Assumptions C119_plain_order.
Print Assumptions C119_order_refuted.
