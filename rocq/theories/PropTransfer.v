(** * C133: incremental zone transfers *)
From Coq Require Import Lia ZifyBool ZifyNat ZifyN Permutation.
From Verif Require Import Base Buffer Fqdn Header Types RDataBasic RDataSec Svcb Bitmap RData Packet BaseFacts FqdnFacts CodeSpec RDataSpec RDataReads CompressSpec ChunkFacts
  RecordSpec HeaderSpec PacketFacts ObjectSpec ObjectFacts Api Equality EqualityFacts PropName PropRecord PropPacket PropCut PropTrust PropEqual PropKnown.

(** ** What users write (RFC 1995, 4)

    The answer to an IXFR query is the newest SOA record, then for each change of the zone the old SOA record, the records removed, the new SOA record and the
    records added, and the newest SOA record again.  It may take several messages.  Who receives it goes through the records: each SOA record ends a list. *)
Definition is_soa (r : rr) : bool := rtype_eqb (rr_type r) SOA.
Fixpoint follow (removing : bool) (zone rs : list rr) : list rr :=
  match rs with
  | [] => zone
  | r :: rs' =>
    if is_soa r then follow (negb removing) zone rs'
    else if removing then follow removing (filter (fun x => negb (rr_eqb x r)) zone) rs'
    else follow removing (zone ++ [r]) rs'
  end.
(** A single SOA record says that nothing has changed; if no SOA record follows the first, it is the whole zone that is sent. *)
Definition transferred (zone : list rr) (got : list packet) : list rr :=
  match flat_map p_answers got with
  | _ :: (r :: _) as rs => if is_soa r then follow false zone rs else filter (fun r => negb (is_soa r)) rs
  | _ => zone
  end.

(** ** What is meant *)
Record change := mkChange { old_soa : rr; removed : list rr; new_soa : rr; added : list rr }.
Definition change_ok (x : change) : Prop :=
  rr_type (old_soa x) = SOA /\ rr_type (new_soa x) = SOA /\ Forall (fun r => rr_type r <> SOA) (removed x ++ added x).
Definition answer (newest : rr) (xs : list change) : list rr := newest :: flat_map (fun x => old_soa x :: removed x ++ new_soa x :: added x) xs ++ [newest].
(** The records of the zone after the changes: [happened z xs z']. *)
Inductive happened (z : rr -> Prop) : list change -> (rr -> Prop) -> Prop :=
| nothing : happened z [] z
| changed xs x z1 : happened z xs z1 -> happened z (xs ++ [x]) (fun r => (z1 r /\ ~ In r (removed x)) \/ In r (added x)).
(** No EDNS options, the order of which [==] does not see. *)
Definition no_options (r : rr) : Prop := forall m, rr_data r <> DOPT m.

Lemma eqb_exact a b : no_options a -> (rr_eqb a b = true <-> a = b).
Proof.
  intros N. assert (Ma : a_map (rr_data a)) by (destruct (rr_data a) eqn:E; try exact Logic.I; destruct (N _ E)).
  split.
  - intros E. assert (Mb : a_map (rr_data b)).
    { destruct (rr_data b) eqn:D; try exact Logic.I. exfalso. unfold rr_eqb in E. rewrite D in E. rewrite !andb_true_iff in E. destruct E as (_ & E). destruct (rr_data a) eqn:Da; cbn in E; try discriminate E. destruct (N _ Da). }
    apply rr_eqb_iff in E; [|assumption..]. destruct a as [n t f k w d], b as [n' t' f' k' w' d']. destruct E as (A & B & C & D & E & S). cbn [rr_name rr_type rr_flush rr_class rr_ttl rr_data] in *. subst. f_equal.
    destruct d, d'; cbn [same_data] in S; try exact S; try discriminate S. destruct (N x). reflexivity.
  - intros <-. apply rr_eqb_iff; [assumption..|]. repeat split. apply same_data_refl.
Qed.
Lemma follow_removed ds : Forall (fun r => rr_type r <> SOA) ds -> forall zone rs, Forall no_options zone ->
  exists zone', follow true zone (ds ++ rs) = follow true zone' rs /\ Forall no_options zone' /\ forall r, In r zone' <-> In r zone /\ ~ In r ds.
Proof.
  intros F. induction F as [|d ds Nd F IH]; intros zone rs N; [exists zone; split; [reflexivity|]; split; [exact N|]; intros r; cbn; tauto|].
  cbn [app follow]. assert (S : is_soa d = false) by (unfold is_soa; destruct (rtype_eqb _ _) eqn:E; [apply (proj1 (rtype_iff _ _)) in E; congruence|reflexivity]). rewrite S.
  destruct (IH (filter (fun x => negb (rr_eqb x d)) zone) rs) as (zone' & E & N' & I).
  { rewrite Forall_forall in *. intros x Ix. apply filter_In in Ix. apply N, Ix. }
  exists zone'. split; [exact E|]. split; [exact N'|]. intros r. rewrite I, filter_In, negb_true_iff. rewrite Forall_forall in N. cbn [In]. split.
  - intros ((Ir & Q) & K). split; [exact Ir|]. intros [->|X]; [|exact (K X)]. enough (rr_eqb r r = true) by congruence. apply eqb_exact; [apply N, Ir|reflexivity].
  - intros (Ir & K). repeat split; [exact Ir| |tauto]. destruct (rr_eqb r d) eqn:Q; [|reflexivity]. apply eqb_exact in Q; [|apply N, Ir]. destruct K. left. congruence.
Qed.
Lemma follow_added ds : Forall (fun r => rr_type r <> SOA) ds -> forall zone rs, follow false zone (ds ++ rs) = follow false (zone ++ ds) rs.
Proof.
  intros F. induction F as [|d ds Nd F IH]; intros zone rs; [rewrite app_nil_r; reflexivity|].
  cbn [app follow]. assert (S : is_soa d = false) by (unfold is_soa; destruct (rtype_eqb _ _) eqn:E; [apply (proj1 (rtype_iff _ _)) in E; congruence|reflexivity]). rewrite S, IH, <- app_assoc. reflexivity.
Qed.
Lemma soa_ends r : rr_type r = SOA -> is_soa r = true. Proof. unfold is_soa. intros ->. reflexivity. Qed.
Lemma follow_changes z xs z' : happened z xs z' -> Forall change_ok xs -> forall zone rest, Forall no_options zone -> Forall (fun x => Forall no_options (added x)) xs -> (forall r, In r zone <-> z r) ->
  exists zone', follow false zone (flat_map (fun x => old_soa x :: removed x ++ new_soa x :: added x) xs ++ rest) = follow false zone' rest /\ Forall no_options zone' /\ forall r, In r zone' <-> z' r.
Proof.
  intros H. induction H as [|xs x z1 H IH]; intros F zone rest N A I; [exists zone; repeat split; [exact N|apply I|apply I]|].
  apply Forall_app in F. destruct F as (F & Fx). apply Forall_inv in Fx. apply Forall_app in A. destruct A as (A & Ax). apply Forall_inv in Ax. destruct Fx as (S1 & S2 & Fx). apply Forall_app in Fx. destruct Fx as (F1 & F2).
  rewrite flat_map_app, <- app_assoc. destruct (IH F zone (flat_map (fun x => old_soa x :: removed x ++ new_soa x :: added x) [x] ++ rest) N A I) as (z2 & E & N2 & I2). rewrite E.
  cbn [flat_map app follow]. rewrite app_nil_r, (soa_ends _ S1). cbn [negb]. rewrite <- app_assoc. destruct (follow_removed (removed x) F1 z2 ((new_soa x :: added x) ++ rest) N2) as (z3 & E3 & N3 & I3). rewrite E3.
  cbn [app follow]. rewrite (soa_ends _ S2). cbn [negb]. rewrite (follow_added _ F2). exists (z3 ++ added x). split; [reflexivity|]. split; [apply Forall_app; split; assumption|].
  intros r. rewrite in_app_iff, I3, I2. tauto.
Qed.

Lemma soa_false r : is_soa r = false <-> rr_type r <> SOA.
Proof. unfold is_soa. destruct (rtype_eqb _ _) eqn:E; [apply (proj1 (rtype_iff _ _)) in E|]; split; intros H; try congruence. intros X. rewrite X in E. discriminate E. Qed.

(** ** Theorems *)
(** However many changes there are, and however the answer is spread over messages of whatever form: the receiver has the records of the changed zone. *)
Theorem C133_followed_partial : forall (c : cfg) (ms : list (packet * bytes)) (newest : rr) (xs : list change) (zone : list rr) (z' : rr -> Prop),
  Forall (fun m => exists h, sent c h (fst m) (snd m)) ms -> flat_map p_answers (map fst ms) = answer newest xs ->
  rr_type newest = SOA -> Forall change_ok xs -> Forall no_options zone -> Forall (fun x => Forall no_options (added x)) xs ->
  happened (fun r => In r zone) xs z' ->
  exists got, delivered c ms got /\ forall r, In r (transferred zone got) <-> z' r.
Proof.
  intros c ms newest xs zone z' F E S O N A H. destruct (all_arrive c ms F) as (got & D & Eg & _). exists got. split; [exact D|]. unfold transferred. rewrite Eg, E. unfold answer.
  destruct (follow_changes _ xs z' H O zone [newest] N A ltac:(reflexivity)) as (zone' & X & _ & I).
  assert (Z : exists r rs, flat_map (fun x => old_soa x :: removed x ++ new_soa x :: added x) xs ++ [newest] = r :: rs /\ rr_type r = SOA).
  { destruct xs as [|x xs]; [exists newest, []; split; [reflexivity|exact S]|]. cbn [flat_map app]. do 2 eexists. split; [reflexivity|]. apply Forall_inv in O. apply O. }
  destruct Z as (r & rs & Z & Sr). rewrite Z in *. rewrite (soa_ends _ Sr), X. cbn [follow]. rewrite (soa_ends _ S). exact I.
Qed.
(** The whole zone may be sent instead; and a single SOA record leaves the zone as it is. *)
Theorem C133_whole_partial : forall (c : cfg) (ms : list (packet * bytes)) (newest : rr) (rs : list rr) (zone : list rr),
  Forall (fun m => exists h, sent c h (fst m) (snd m)) ms -> rr_type newest = SOA -> Forall (fun r => rr_type r <> SOA) rs -> rs <> [] ->
  flat_map p_answers (map fst ms) = newest :: rs ++ [newest] ->
  exists got, delivered c ms got /\ transferred zone got = rs.
Proof.
  intros c ms newest rs zone F S R Ne E. destruct (all_arrive c ms F) as (got & D & Eg & _). exists got. split; [exact D|]. unfold transferred. rewrite Eg, E.
  destruct rs as [|r rs]; [congruence|]. cbn [app]. assert (Sr : is_soa r = false) by (apply soa_false, (Forall_inv R)). rewrite Sr.
  change (r :: rs ++ [newest]) with ((r :: rs) ++ [newest]). rewrite filter_app. cbn [filter]. rewrite (soa_ends _ S). cbn [negb]. rewrite app_nil_r, Sr. cbn [negb]. f_equal.
  apply Forall_inv_tail in R. clear E Ne. induction R as [|x rs Rx R IH]; [reflexivity|]. cbn [filter]. apply soa_false in Rx. rewrite Rx. cbn [negb]. f_equal. exact IH.
Qed.
Theorem C133_none_partial : forall (c : cfg) (h : hasher) (p : packet) (out : bytes) (r : rr) (zone : list rr), sent c h p out -> p_answers p = [r] ->
  exists p', packet_try_from c out = Ok p' /\ transferred zone [p'] = zone.
Proof. intros c h p out r zone S A. destruct (answers_arrive c h p out S) as (p' & R & Q). exists p'. split; [exact R|]. unfold transferred. cbn [flat_map]. rewrite Q, A. reflexivity. Qed.

(** A record that is removed under another spelling of its name stays. *)
Definition ex_soa (serial : N) : rr := mkRR [[101;120;97;109;112;108;101]; [99;111;109]] SOA false CIN 60 (DSOA (mkSoa ex_www ex_www serial 1 2 3 4)).
Lemma soa_ok c n : n < 4294967296 -> rr_plain_ok c (ex_soa n).
Proof.
  intros L. split; [|split; [exact Logic.I|intros bs E; injection E as <-; unfold ex_soa; cbn; discriminate]]. split; [|split].
  - destruct c as [[|] [|] [|]]; repeat split; try discriminate; try reflexivity; unfold fqdn_ok, label_ok; repeat constructor; cbn; lia.
  - destruct c as [[|] [|] [|]]; repeat split; try assumption; try reflexivity; discriminate.
  - destruct c as [[|] [|] [|]]; repeat split; try assumption; try reflexivity; try exact ex_name_ok.
Qed.
Theorem C133_case_refuted : forall (c : cfg) (h : hasher), exists (p : packet) (out : bytes) (newest : rr) (x : change) (r r' : rr), sent c h p out /\ p_answers p = answer newest [x] /\
  rr_type newest = SOA /\ change_ok x /\ removed x = [r'] /\ added x = [] /\ same_name (rr_name r) (rr_name r') /\ rr_set_name r (rr_name r') = r' /\
  exists p', packet_try_from c out = Ok p' /\ transferred [r] [p'] = [r].
Proof.
  intros c h. set (r' := mkRR [[87; 87; 87]; [101;120;97;109;112;108;101]; [99;111;109]] A false CIN 120 (DA 16909060)). set (x := mkChange (ex_soa 1) [r'] (ex_soa 2) []).
  exists (ex_knows (answer (ex_soa 2) [x])).
  assert (O : packet_plain_ok c (ex_knows (answer (ex_soa 2) [x])) /\ small_sections (ex_knows (answer (ex_soa 2) [x]))).
  { apply knows_ok; [|cbn; lia]. unfold answer. cbn [flat_map app x old_soa removed new_soa added]. repeat apply Forall_cons; try apply Forall_nil; try (apply soa_ok; reflexivity).
    apply host_ok; [unfold fqdn_ok, label_ok; repeat constructor; cbn; lia|reflexivity..]. }
  destruct O as (O & Sm).
  destruct c as [[|] [|] [|]]; eexists; exists (ex_soa 2), x, (rr_set_name r' ex_www), r'; (split; [apply sent_plain; [exact O|exact Sm|vm_compute; reflexivity]|]).
  all: try (split; [reflexivity|]; split; [reflexivity|]; split; [repeat split; repeat constructor; discriminate|]; do 4 (split; [reflexivity|]); eexists; split; [vm_compute; reflexivity|reflexivity]).
Qed.

(** Two changes in two messages. *)
Definition ex_changes : list change := [mkChange (ex_soa 1) [ex_host 97 60] (ex_soa 2) [ex_host 98 60; ex_host 99 60]; mkChange (ex_soa 2) [ex_host 98 60] (ex_soa 3) [ex_host 97 90]].
Example C133_ex : exists o1 o2 z', let ms := [(ex_knows (firstn 5 (answer (ex_soa 3) ex_changes)), o1); (ex_knows (skipn 5 (answer (ex_soa 3) ex_changes)), o2)] in
  Forall (fun m => exists h, sent ex_cfg h (fst m) (snd m)) ms /\ flat_map p_answers (map fst ms) = answer (ex_soa 3) ex_changes /\ Forall change_ok ex_changes /\
  Forall no_options [ex_host 97 60; ex_host 100 60] /\ Forall (fun x => Forall no_options (added x)) ex_changes /\ happened (fun r => In r [ex_host 97 60; ex_host 100 60]) ex_changes z' /\
  transferred [ex_host 97 60; ex_host 100 60] (map fst ms) = [ex_host 100 60; ex_host 99 60; ex_host 97 90].
Proof.
  do 3 eexists. cbv zeta. split; [|split; [reflexivity|split; [|split; [|split; [|split; [|reflexivity]]]]]].
  - repeat (apply Forall_cons; [exists ex_hash; apply sent_plain; [apply knows_ok|apply (knows_ok ex_cfg)|vm_compute; reflexivity]|]); try apply Forall_nil.
    all: try (cbn; lia).
    all: cbn [answer ex_changes flat_map app firstn skipn old_soa removed new_soa added]; repeat apply Forall_cons; try apply Forall_nil; try (apply soa_ok; reflexivity).
    all: apply host_ok; [unfold fqdn_ok, label_ok, ex_www; repeat constructor; cbn; lia|reflexivity..].
  - repeat (apply Forall_cons; [split; [reflexivity|]; split; [reflexivity|]; repeat (apply Forall_cons; [discriminate|]); apply Forall_nil|]). apply Forall_nil.
  - repeat (apply Forall_cons; [intros m; discriminate|]). apply Forall_nil.
  - repeat (apply Forall_cons; [repeat (apply Forall_cons; [intros m; discriminate|]); apply Forall_nil|]). apply Forall_nil.
  - apply (changed _ [_]). apply (changed _ []). apply nothing.
Qed.
Print Assumptions C133_followed_partial.
Print Assumptions C133_whole_partial.
Print Assumptions C133_none_partial.
Print Assumptions C133_case_refuted.
