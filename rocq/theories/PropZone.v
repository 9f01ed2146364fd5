(** * Property C120: a list of records spread over several messages *)
From Coq Require Import Lia ZifyBool ZifyNat ZifyN.
From Verif Require Import Base Buffer Fqdn Header Types RDataBasic Svcb RDataSec RData Packet BaseFacts FqdnFacts CodeSpec CodeFacts HeaderSpec HeaderFacts CompressSpec RDataSpec RDataReads RDataFacts RecordSpec RecordFacts
  PacketFacts PacketProps ApiSpec PropName PropRecord PropPacket PropLimit PropStream.

(** ** What a user writes

    A server sends a zone, or an answer too long for one message, as several messages of a TCP connection (RFC 5936, 2.2).  It is not in the repository; all it calls is
    public (lib.rs:3-11). *)
(** [for r in records { let mut next = cur.clone(); next.add_answer(r); if next.byte_size() <= limit { cur = next } else { send(cur); cur = base.clone(); cur.add_answer(r) } } send(cur)]. *)
Fixpoint spread (c : cfg) (limit : nat) (base cur : packet) (rs : list rr) : res (list packet) :=
  match rs with
  | [] => Ok [cur]
  | r :: rs' =>
    let! next := add_answer c cur r in
    let! n := packet_byte_size c next in
    if (n <=? limit)%nat then spread c limit base next rs'
    else let! first := add_answer c base r in let! rest := spread c limit base first rs' in Ok (cur :: rest)
  end.
(** A message of its own: the same but for the answers (and their count). *)
Definition like (base p : packet) : Prop :=
  p_questions p = p_questions base /\ p_authorities p = p_authorities base /\ p_additionals p = p_additionals base /\
  id (p_header p) = id (p_header base) /\ hflags (p_header p) = hflags (p_header base).

(** ** Proofs *)
Definition room (c : cfg) (r : rr) : nat := match rr_byte_size c r with Ok k => k | _ => 0%nat end.
Definition rooms (c : cfg) (rs : list rr) : nat := fold_right (fun r k => (room c r + k)%nat) 0%nat rs.
(** How many messages there are. *)
Fixpoint many (c : cfg) (limit n u : nat) (rs : list rr) : nat :=
  match rs with
  | [] => 1
  | r :: rs' => if (n + u + room c r <=? limit)%nat then many c limit n (u + room c r) rs' else S (many c limit n (room c r) rs')
  end.
Lemma room_ok c r : rr_plain_ok c r -> rr_byte_size c r = Ok (room c r).
Proof. intros X. destruct (rr_plain_size c r) as [m Em]; [apply X|]. unfold room. rewrite Em. reflexivity. Qed.
Lemma rooms_ok c rs : Forall (rr_plain_ok c) rs -> sum_res (rr_byte_size c) rs = Ok (rooms c rs).
Proof. induction 1 as [|r rs X F IH]; [reflexivity|]. cbn [sum_res rooms fold_right]. rewrite (room_ok c r X), IH. reflexivity. Qed.
Lemma like_size c base p n : packet_byte_size c base = Ok n -> p_answers base = [] -> p_questions p = p_questions base -> p_authorities p = p_authorities base ->
  p_additionals p = p_additionals base -> Forall (rr_plain_ok c) (p_answers p) -> packet_byte_size c p = Ok (n + rooms c (p_answers p))%nat.
Proof.
  unfold packet_byte_size. intros E A -> -> -> F. rewrite A in E. cbn [sum_res rbind] in E. rewrite (rooms_ok c _ F). cbn [rbind].
  destruct (sum_res _ (p_authorities base)); cbn [rbind] in *; try discriminate. destruct (sum_res _ (p_additionals base)); cbn [rbind] in *; try discriminate.
  injection E as <-. f_equal. unfold HEADER_SIZE. lia.
Qed.
Lemma spread_cases c limit base n rs : packet_plain_ok c base -> counts_of base = true_counts base -> p_answers base = [] -> packet_byte_size c base = Ok n ->
  N.of_nat limit <= 65535 -> Forall (rr_plain_ok c) rs -> Forall (fun r => (n + room c r <= limit)%nat) rs ->
  forall cur u, packet_plain_ok c cur -> counts_of cur = true_counts cur -> packet_byte_size c cur = Ok (n + u)%nat -> (n + u <= limit)%nat -> like base cur ->
  exists ps, spread c limit base cur rs = Ok ps /\
    Forall (fun p => packet_plain_ok c p /\ counts_of p = true_counts p /\ (exists k, packet_byte_size c p = Ok k /\ (k <= limit)%nat) /\ like base p) ps /\
    concat (map p_answers ps) = p_answers cur ++ rs /\ length ps = many c limit n u rs.
Proof.
  intros Pb Kb Ab Eb L F. induction F as [|r rs X F IH]; intros G cur u P K E Le Lk.
  - exists [cur]. cbn [spread map concat length many]. split; [reflexivity|]. split; [constructor; [|constructor]; eauto 6|]. split; [rewrite !app_nil_r; reflexivity|reflexivity].
  - apply Forall_cons_iff in G. destruct G as [G0 G]. pose proof (room_ok c r X) as Er.
    destruct (added_ok c cur r (n + u) P K X E ltac:(lia)) as (next & A & Pn & Kn & An & Qn & Un & Dn & In & Fn).
    pose proof (added_size c cur r next _ _ A E Er) as En. cbn [spread many]. rewrite A. cbn [rbind]. rewrite En. cbn [rbind].
    destruct Lk as (L1 & L2 & L3 & L4 & L5).
    destruct (Nat.leb_spec (n + u + room c r) limit) as [H|H].
    + destruct (IH G next (u + room c r)%nat Pn Kn) as (ps & S & W & C & M).
      { rewrite En. f_equal. lia. } { lia. } { repeat (split; [congruence|]). congruence. }
      exists ps. split; [exact S|]. split; [exact W|]. split; [|exact M]. rewrite C, An, <- app_assoc. reflexivity.
    + destruct (added_ok c base r n Pb Kb X Eb ltac:(lia)) as (first & A' & Pf & Kf & Af & Qf & Uf & Df & If & Ff).
      pose proof (added_size c base r first _ _ A' Eb Er) as Ef.
      destruct (IH G first (room c r) Pf Kf Ef G0) as (ps & S & W & C & M). { repeat (split; [assumption|]). assumption. }
      rewrite A'. cbn [rbind]. rewrite S. cbn [rbind]. exists (cur :: ps). split; [reflexivity|]. split.
      { constructor; [|exact W]. split; [exact P|]. split; [exact K|]. split; [eauto|]. repeat (split; [assumption|]). assumption. }
      split; [|cbn [length]; rewrite M; reflexivity]. cbn [map concat]. rewrite C, Af, Ab. reflexivity.
Qed.
Lemma first_nonempty {A} (gs : list (list A)) (r : A) rs : concat gs = r :: rs -> exists es g gs', gs = es ++ (r :: g) :: gs' /\ rs = g ++ concat gs'.
Proof.
  induction gs as [|[|x g] gs IH]; cbn [concat app]; intros E; [discriminate| |].
  - destruct (IH E) as (es & g & gs' & -> & X). exists ([] :: es), g, gs'. split; [reflexivity|exact X].
  - injection E as -> <-. exists [], g, gs. split; reflexivity.
Qed.
Lemma fewest c limit n rs : forall u g gs, rs = g ++ concat gs -> (n + u + rooms c g <= limit)%nat -> Forall (fun g => (n + rooms c g <= limit)%nat) gs ->
  (many c limit n u rs <= S (length gs))%nat.
Proof.
  induction rs as [|r rs IH]; intros u g gs E H F; cbn [many]; [lia|].
  assert (T : g = [] -> exists es g' gs', gs = es ++ (r :: g') :: gs' /\ rs = g' ++ concat gs' /\ (n + rooms c (r :: g') <= limit)%nat /\ Forall (fun g => (n + rooms c g <= limit)%nat) gs').
  { intros ->. destruct (first_nonempty gs r rs (eq_sym E)) as (es & g' & gs' & -> & X). exists es, g', gs'. apply Forall_app in F. destruct F as [_ F]. apply Forall_cons_iff in F.
    split; [reflexivity|]. split; [exact X|exact F]. }
  destruct (Nat.leb_spec (n + u + room c r) limit) as [Le|Lt].
  - destruct g as [|x g].
    + destruct (T eq_refl) as (es & g' & gs' & -> & -> & X & F'). rewrite app_length. cbn [length]. etransitivity; [apply (IH (u + room c r)%nat [] (g' :: gs'))|cbn [length]; lia].
      * reflexivity.
      * cbn [rooms fold_right]. lia.
      * constructor; [|exact F']. cbn [rooms fold_right] in X. fold (rooms c g') in X. lia.
    + cbn [app] in E. injection E as -> ->. apply (IH _ g gs eq_refl); [|exact F]. cbn [rooms fold_right] in H. fold (rooms c g) in H. lia.
  - destruct g as [|x g].
    + destruct (T eq_refl) as (es & g' & gs' & -> & -> & X & F'). rewrite app_length. cbn [length].
      pose proof (IH (room c r) g' gs' eq_refl) as Y. cbn [rooms fold_right] in X. fold (rooms c g') in X. specialize (Y ltac:(lia) F'). lia.
    + cbn [app] in E. injection E as -> ->. cbn [rooms fold_right] in H. lia.
Qed.

(** ** C120 *)

(** False where [byte_size] is too small (C24): for every limit there is a record for which a message longer than that is made. *)
Theorem C120_over_refuted : forall (c : cfg) (limit : nat) (tag : bytes), (25 <= limit)%nat -> N.of_nat limit <= 65535 -> text tag -> tag <> [] -> short tag ->
  exists (r : rr) (p : packet) (bs : bytes), rr_ok c r /\ spread c limit (packet_new_reply 0) (packet_new_reply 0) [r] = Ok [p] /\ packet_to_bytes c p = Ok bs /\ (limit < length bs)%nat.
Proof.
  intros c limit tag L1 L2 T NE Sh. destruct (C118_over_refuted c limit tag L1 L2 T NE Sh) as (r & p & bs & O & F & A & _ & E & L). exists r, p, bs. split; [exact O|]. split; [|split; [exact E|]].
  - cbn [filled spread] in *. destruct (add_answer c (packet_new_reply 0) r) as [next| | |]; cbn [rbind] in *; try discriminate.
    destruct (packet_byte_size c next) as [k| | |]; cbn [rbind] in *; try discriminate. destruct (Nat.ltb_spec limit k); [injection F as <-; discriminate A|].
    destruct (Nat.leb_spec k limit); [|lia]. injection F as <-. reflexivity.
  - rewrite L. destruct tag; [congruence|]. cbn [length]. lia.
Qed.
(** For all other records that fit a message at all: every message keeps to the limit in both forms and is read as it was, their answers are the records in order, and the
    stream of the messages, however it is cut into pieces, is taken apart into exactly these messages. *)
Theorem C120_zone_partial : forall (c : cfg) (limit : nat) (base : packet) (rs : list rr) (n : nat), packet_plain_ok c base -> counts_of base = true_counts base -> p_answers base = [] ->
  packet_byte_size c base = Ok n -> (n <= limit)%nat -> N.of_nat limit <= 65535 -> Forall (rr_plain_ok c) rs ->
  Forall (fun r => exists b, rr_to_bytes c r = Ok b /\ (n + length b <= limit)%nat) rs ->
  exists (ps : list packet) (ds : list bytes), spread c limit base base rs = Ok ps /\ concat (map p_answers ps) = rs /\ Forall (like base) ps /\
    Forall2 (fun p d => packet_to_bytes c p = Ok d /\ (length d <= limit)%nat /\ packet_try_from c d = Ok p /\
      forall h, exists cb, packet_to_bytes_compressed c h p = Ok cb /\ (length cb <= limit)%nat /\ (hash_separates h (packet_names p) -> N.of_nat (length cb) <= 16384 -> packet_try_from c cb = Ok p)) ps ds /\
    (forall pieces, Forall byte_list ds -> concat pieces = flat_map with_length ds -> exists ms, receive [] pieces = Ok (ms, []) /\ map (packet_try_from c) ms = map Ok ps).
Proof.
  intros c limit base rs n Pb Kb Ab Eb Le L F G.
  assert (G' : Forall (fun r => (n + room c r <= limit)%nat) rs).
  { rewrite Forall_forall in *. intros r I. destruct (G r I) as (b & Er & Lb). destruct (rr_size c r b) as (m & Em & Z); [apply (F r I)|exact Er|].
    pose proof (no_error c [r] (Forall_cons r (F r I) (Forall_nil _))) as Z0. cbn [fold_right] in Z0. unfold room. rewrite Em. lia. }
  destruct (spread_cases c limit base n rs Pb Kb Ab Eb L F G' base 0%nat Pb Kb) as (ps & S & W & C & _).
  { rewrite Nat.add_0_r. exact Eb. } { lia. } { repeat split. }
  rewrite Ab in C. cbn [app] in C.
  assert (D : exists ds, Forall2 (fun p d => packet_to_bytes c p = Ok d /\ (length d <= limit)%nat /\ packet_try_from c d = Ok p /\
      forall h, exists cb, packet_to_bytes_compressed c h p = Ok cb /\ (length cb <= limit)%nat /\ (hash_separates h (packet_names p) -> N.of_nat (length cb) <= 16384 -> packet_try_from c cb = Ok p)) ps ds).
  { clear - W. induction W as [|p ps (P & K & (k & Ek & Lk) & _) W (ds & IH)]; [exists []; constructor|]. destruct (plain_size c p P K) as (bs & E1 & E2 & E3).
    exists (bs :: ds). constructor; [|exact IH]. assert (k = length bs) by congruence. split; [exact E1|]. split; [lia|]. split; [exact E3|].
    intros h. destruct (compressed_fits c h p bs P K E1) as (cb & Ec & Lc & Gc). exists cb. split; [exact Ec|]. split; [lia|exact Gc]. }
  destruct D as (ds & D). exists ps, ds. split; [exact S|]. split; [exact C|]. split; [eapply Forall_impl; [|exact W]; intros p X; apply X|]. split; [exact D|].
  intros pieces B E. exists ds. assert (Sd : Forall sendable ds).
  { clear - D B L. induction D as [|p d ps ds (_ & X & _) D IH]; [constructor|]. apply Forall_cons_iff in B. constructor; [split; [lia|apply B]|apply IH, B]. }
  split.
  - apply C116_pieces; [|exact Sd| |rewrite app_nil_r; exact E].
    + rewrite E. clear - Sd. induction Sd as [|m ms (X & Y) Sd IH]; [constructor|]. cbn [flat_map]. apply Forall_app. split; [|exact IH]. apply Forall_app. split; [apply be_bytes|exact Y].
    + exists [], [0; 0]. split; [split; [cbn; lia|constructor]|]. split; [reflexivity|discriminate].
  - clear - D. induction D as [|p d ps ds (_ & _ & X & _) D IH]; [reflexivity|]. cbn [map]. rewrite IH, X. reflexivity.
Qed.
(** No other way of cutting the list into messages that keep to the limit in plain form takes fewer of them. *)
Theorem C120_fewest : forall (c : cfg) (limit : nat) (base : packet) (rs : list rr) (n : nat) (ps qs : list packet), packet_plain_ok c base -> counts_of base = true_counts base -> p_answers base = [] ->
  packet_byte_size c base = Ok n -> (n <= limit)%nat -> N.of_nat limit <= 65535 -> Forall (rr_plain_ok c) rs -> spread c limit base base rs = Ok ps ->
  qs <> [] -> concat (map p_answers qs) = rs -> Forall (like base) qs -> Forall (fun q => exists bs, packet_to_bytes c q = Ok bs /\ (length bs <= limit)%nat) qs ->
  (length ps <= length qs)%nat.
Proof.
  intros c limit base rs n ps qs Pb Kb Ab Eb Le L F S NE C Lk W.
  assert (X : Forall (fun g => (n + rooms c g <= limit)%nat) (map p_answers qs) /\ Forall (fun r => (n + room c r <= limit)%nat) rs).
  { assert (Y : Forall (fun g => (n + rooms c g <= limit)%nat) (map p_answers qs)).
    { rewrite <- C in F. clear - F Lk W Eb Ab Pb. induction qs as [|q qs IH]; [constructor|]. cbn [map concat] in *. apply Forall_app in F. destruct F as [Fq F].
      apply Forall_cons_iff in Lk. destruct Lk as ((K1 & K2 & K3 & _) & Lk). apply Forall_cons_iff in W. destruct W as ((bs & E & Lb) & W). constructor; [|apply IH; assumption].
      assert (R : Forall (rr_plain_ok c) (records_of q)).
      { destruct Pb as (_ & _ & R). unfold records_of in *. rewrite K2, K3. rewrite !Forall_app in *. split; [exact Fq|]. split; apply R. }
      destruct (packet_size c q bs) as (k & Ek & Z); [apply plain_typed, R|exact E|]. rewrite (no_error c) in Z by exact R.
      pose proof (like_size c base q n Eb Ab K1 K2 K3 Fq) as En. rewrite Ek in En. apply Ok_inj in En. lia. }
    split; [exact Y|]. rewrite <- C. clear - Y. induction (map p_answers qs) as [|g gs IH]; [constructor|]. apply Forall_cons_iff in Y. cbn [concat]. apply Forall_app. split; [|apply IH, Y].
    destruct Y as [Y _]. clear - Y. induction g as [|r g IH]; [constructor|]. cbn [rooms fold_right] in Y. fold (rooms c g) in Y. constructor; [lia|apply IH; lia]. }
  destruct X as [X G]. destruct (spread_cases c limit base n rs Pb Kb Ab Eb L F G base 0%nat Pb Kb) as (ps' & S' & _ & _ & M).
  { rewrite Nat.add_0_r. exact Eb. } { lia. } { repeat split. }
  rewrite S in S'. apply Ok_inj in S'. subst ps'. rewrite M. destruct qs as [|q qs]; [congruence|]. cbn [map concat length] in *. apply Forall_cons_iff in X.
  rewrite <- (map_length p_answers qs). apply (fewest c limit n rs 0 (p_answers q)); [symmetry; exact C|lia|apply X].
Qed.
(** Three records in messages of at most 120 octets: one in the first, two in the second. *)
Definition zone_records : list rr := p_answers ex_packet ++ [mkRR ex_www MX false CIN 5 (DMX (mkMx 10 ex_ftp))].
Definition zone_base : packet := mkPacket (mkheader 7 (hflags (header_new_reply 0 StandardQuery)) 0 0 0 0) [] [] [] [].
Example C120_ex : packet_plain_ok ex_cfg zone_base /\ counts_of zone_base = true_counts zone_base /\ packet_byte_size ex_cfg zone_base = Ok 12%nat /\ Forall (rr_plain_ok ex_cfg) zone_records /\
  Forall (fun r => exists b, rr_to_bytes ex_cfg r = Ok b /\ (12 + length b <= 120)%nat) zone_records /\
  (exists ps, spread ex_cfg 120 zone_base zone_base zone_records = Ok ps /\ map (fun p => length (p_answers p)) ps = [1; 2]%nat) /\ text [97; 98; 99] /\ short [97; 98; 99].
Proof.
  assert (F : Forall (rr_plain_ok ex_cfg) (records_of ex_packet)) by apply ex_packet_plain.
  split; [|split; [reflexivity|split; [reflexivity|split; [|split; [|split; [|split; [reflexivity|cbn; unfold short; cbn; lia]]]]]]].
  - split; [unfold header_typed; vm_compute; repeat split|]. split; [constructor|constructor].
  - exact F.
  - unfold zone_records. vm_compute p_answers. repeat (constructor; [eexists; split; [vm_compute; reflexivity|vm_compute; lia]|]). constructor.
  - eexists. split; [vm_compute; reflexivity|vm_compute; reflexivity].
Qed.
Print Assumptions C120_over_refuted.
Print Assumptions C120_zone_partial.
Print Assumptions C120_fewest.
