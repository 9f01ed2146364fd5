(** * C129: what is announced replaces what was held, in every cache alike *)
From Coq Require Import Lia ZifyBool ZifyNat ZifyN.
From Verif Require Import Base Buffer Fqdn Header Types RDataBasic RDataSec Svcb Bitmap RData Packet BaseFacts FqdnFacts CodeSpec RDataSpec RDataReads CompressSpec ChunkFacts
  RecordSpec HeaderSpec PacketFacts ObjectSpec ObjectFacts Api Equality EqualityFacts PropName PropRecord PropPacket PropCut PropTrust PropEqual PropKnown.

(** ** What a user writes (RFC 6762, 10)

    A cache has records with the time in seconds at which they came.  A record that comes replaces the same one; if it has the cache flush bit, also the others of
    the same name, type and class that came more than one second before; and with no time to live it says good-bye. *)
Definition of_set (r r' : rr) : bool := fqdn_eqb (rr_name r) (rr_name r') && rtype_eqb (rr_type r) (rr_type r') && rclass_eqb (rr_class r) (rr_class r').
Definition replaces (new old : N * rr) : bool :=
  of_set (snd new) (snd old) && (rdata_eqb (rr_data (snd new)) (rr_data (snd old)) || (rr_flush (snd new) && (fst old + 1 <? fst new))).
Definition hear (held : list (N * rr)) (new : N * rr) : list (N * rr) :=
  let rest := filter (fun old => negb (replaces new old)) held in if rr_ttl (snd new) =? 0 then rest else rest ++ [new].
(** The records of a message that came at time [t], and all that has come. *)
Definition came (m : N * packet) : list (N * rr) := map (pair (fst m)) (p_answers (snd m) ++ p_additionals (snd m)).
Definition cache (ms : list (N * packet)) : list (N * rr) := fold_left hear (flat_map came ms) [].
(** What it gives at time [now]. *)
Definition gives (ms : list (N * packet)) (now : N) : list rr := map snd (filter (fun e => now <? fst e + rr_ttl (snd e)) (cache ms)).

(** ** What is meant

    A record is in force if it has been announced, its time is not over, and nothing that was announced later has taken its place. *)
Definition same_set (r r' : rr) : Prop := rr_name r = rr_name r' /\ rr_type r = rr_type r' /\ rr_class r = rr_class r'.
Definition takes_place (new old : N * rr) : Prop :=
  same_set (snd new) (snd old) /\ (same_data (rr_data (snd new)) (rr_data (snd old)) \/ rr_flush (snd new) = true /\ fst old + 1 < fst new).
Definition in_force (said : list (N * rr)) (now : N) (r : rr) : Prop :=
  exists t before after, said = before ++ (t, r) :: after /\ now < t + rr_ttl r /\ rr_ttl r <> 0 /\ forall new, In new after -> ~ takes_place new (t, r).
(** The messages as they were sent, each with the time at which it came and the octets; and as they are read. *)
Definition multicast (c : cfg) (ms : list (N * packet * bytes)) : Prop := Forall (fun m => exists h, sent c h (snd (fst m)) (snd m)) ms.
Definition heard (c : cfg) (ms : list (N * packet * bytes)) (got : list (N * packet)) : Prop := Forall2 (fun m g => fst g = fst (fst m) /\ packet_try_from c (snd m) = Ok (snd g)) ms got.
Definition announced (ms : list (N * packet * bytes)) : list (N * rr) := flat_map came (map fst ms).

(** ** Facts *)
Definition maps_of (l : list (N * rr)) : Prop := Forall (fun e => a_map (rr_data (snd e))) l.
Lemma replaces_iff new old : a_map (rr_data (snd new)) -> a_map (rr_data (snd old)) -> (replaces new old = true <-> takes_place new old).
Proof.
  intros Mn Mo. unfold replaces, takes_place, of_set, same_set. rewrite !andb_true_iff, orb_true_iff, andb_true_iff, fqdn_eqb_iff, (rtype_iff _ _), (rclass_iff _ _), rdata_eqb_iff, N.ltb_lt by assumption. tauto.
Qed.
Lemma hear_in held new e : maps_of held -> a_map (rr_data (snd new)) -> In e (hear held new) <-> (e = new /\ rr_ttl (snd new) <> 0) \/ (In e held /\ ~ takes_place new e).
Proof.
  intros M Mn. unfold maps_of in M. rewrite Forall_forall in M.
  assert (F : In e (filter (fun old => negb (replaces new old)) held) <-> In e held /\ ~ takes_place new e).
  { rewrite filter_In, negb_true_iff, <- not_true_iff_false. split; intros (I & K); (split; [exact I|]); rewrite (replaces_iff new e Mn (M e I)) in *; exact K. }
  unfold hear. destruct (N.eqb_spec (rr_ttl (snd new)) 0) as [Z|Z].
  - rewrite F. split; [auto|intros [(_ & X)|X]; [contradiction|exact X]].
  - rewrite in_app_iff, F. cbn [In]. split; [intros [X|[<-|[]]]; auto|intros [(-> & _)|X]; auto].
Qed.
Lemma cache_in l : maps_of l -> maps_of (fold_left hear l []) /\
  forall e, In e (fold_left hear l []) <-> exists before after, l = before ++ e :: after /\ rr_ttl (snd e) <> 0 /\ forall new, In new after -> ~ takes_place new e.
Proof.
  induction l as [|n l IH] using rev_ind; intros M.
  - split; [constructor|]. intros e. split; [intros []|]. intros (b & a & E & _). destruct b; discriminate E.
  - unfold maps_of in M. apply Forall_app in M. destruct M as (M & Mn). apply Forall_inv in Mn. destruct (IH M) as (Mh & IH'). rewrite fold_left_app. cbn [fold_left].
    assert (H : forall e, In e (hear (fold_left hear l []) n) <-> (e = n /\ rr_ttl (snd n) <> 0) \/ (In e (fold_left hear l []) /\ ~ takes_place n e)) by (intros e; apply hear_in; assumption).
    split.
    + unfold maps_of in *. rewrite Forall_forall in *. intros e I. apply H in I. destruct I as [(-> & _)|(I & _)]; [exact Mn|exact (Mh e I)].
    + intros e. rewrite H, IH'. split.
      * intros [(-> & Z)|((b & a & E & Z & K) & T)]; [exists l, []; split; [reflexivity|]; split; [exact Z|intros ? []]|].
        exists b, (a ++ [n]). split; [rewrite E, <- app_assoc; reflexivity|]. split; [exact Z|]. intros x I. apply in_app_or in I. destruct I as [I|[<-|[]]]; [exact (K x I)|exact T].
      * intros (b & a & E & Z & K). destruct a as [|y a _] using rev_ind.
        -- left. apply app_inj_tail in E. destruct E as (_ & ->). auto.
        -- right. rewrite app_comm_cons, app_assoc in E. apply app_inj_tail in E. destruct E as (-> & <-). split; [exists b, a; repeat split; auto; intros x I; apply K, in_or_app; auto|apply K, in_or_app; right; left; reflexivity].
Qed.
Lemma said_arrives c h p out : sent c h p out -> exists p', packet_try_from c out = Ok p' /\ p_answers p' = p_answers p /\ p_additionals p' = p_additionals p.
Proof.
  intros [O S E|O C H E L].
  - destruct (C28_plain_roundtrip_partial c p O S) as (bs & Eb & R). rewrite Eb in E. apply Ok_inj in E. subst bs. specialize (R []). rewrite app_nil_r in R. eexists. split; [exact R|split; reflexivity].
  - exists p. split; [|split; reflexivity]. pose proof (C29_compressed_roundtrip_partial c h p out O C H E L []) as R. rewrite app_nil_r in R. exact R.
Qed.
Lemma history_arrives c ms : multicast c ms -> exists got, heard c ms got /\ flat_map came got = announced ms /\ maps_of (announced ms).
Proof.
  intros F. induction F as [|((t, p), out) ms (h & S) F (got & D & E & M)]; [exists []; repeat constructor|]. cbn [fst snd] in S.
  destruct (said_arrives c h p out S) as (p' & R & Q1 & Q2). exists ((t, p') :: got). split; [constructor; [split; [reflexivity|exact R]|exact D]|]. unfold announced in *. cbn [flat_map map fst].
  split; [rewrite E; f_equal; unfold came; cbn [fst snd]; rewrite Q1, Q2; reflexivity|]. unfold maps_of in *. apply Forall_app. split; [|exact M]. unfold came. cbn [fst snd]. rewrite Forall_map. cbn [snd].
  pose proof (sent_maps c h p out S) as Mp. unfold maps_in, records_of in Mp. rewrite !Forall_app in Mp. apply Forall_app. tauto.
Qed.

(** For every history of messages, each in either form: the cache of everyone who has received them gives exactly the records in force. *)
Theorem C129_exact_partial : forall (c : cfg) (ms : list (N * packet * bytes)), multicast c ms ->
  exists got, heard c ms got /\ forall (now : N) (r : rr), In r (gives got now) <-> in_force (announced ms) now r.
Proof.
  intros c ms F. destruct (history_arrives c ms F) as (got & D & E & M). exists got. split; [exact D|]. intros now r. unfold gives, cache. rewrite E. destruct (cache_in _ M) as (_ & H).
  rewrite in_map_iff. split.
  - intros ((t, r') & Er & I). cbn [snd] in Er. subst r'. apply filter_In in I. destruct I as (I & L). apply H in I. destruct I as (b & a & Ea & Z & K). exists t, b, a. cbn [fst snd] in *. repeat split; try assumption. lia.
  - intros (t & b & a & Ea & L & Z & K). exists (t, r). split; [reflexivity|]. apply filter_In. split; [apply H; exists b, a; auto|]. cbn [fst snd]. lia.
Qed.

(** Who comes late agrees with the others: once a record of a set has been announced with the flush bit more than a second after all it has missed, its cache
    gives the same records of that set as one that has heard everything. *)
Theorem C129_late_partial : forall (c : cfg) (missed ms : list (N * packet * bytes)) (t : N) (r : rr), multicast c missed -> multicast c ms ->
  In (t, r) (announced ms) -> rr_flush r = true -> (forall e, In e (announced missed) -> fst e + 1 < t) ->
  exists all late, heard c (missed ++ ms) all /\ heard c ms late /\
  forall (now : N) (r' : rr), same_set r r' -> (In r' (gives all now) <-> In r' (gives late now)).
Proof.
  intros c missed ms t r F1 F2 I Fl Late. destruct (C129_exact_partial c (missed ++ ms)) as (all & Da & Ha); [apply Forall_app; split; assumption|].
  destruct (C129_exact_partial c ms F2) as (late & Dl & Hl). exists all, late. split; [exact Da|]. split; [exact Dl|]. intros now r' S. rewrite Ha, Hl.
  assert (E : announced (missed ++ ms) = announced missed ++ announced ms) by (unfold announced; rewrite map_app, flat_map_app; reflexivity). rewrite E. split.
  - intros (t' & b & a & Ea & L & Z & K). symmetry in Ea. apply app_eq_app in Ea. destruct Ea as (l & [(Eb & Em)|(Em & Er)]).
    + exists t', l, a. repeat split; assumption.
    + destruct l as [|e l]; [exists t', [], a; cbn [app] in Er; rewrite <- Er; repeat split; assumption|]. cbn [app] in Er. injection Er as <- ->.
      exfalso. apply (K (t, r)); [apply in_or_app; right; exact I|]. split; [exact S|]. right. split; [exact Fl|]. cbn [fst]. apply (Late (t', r')). rewrite Em. apply in_elt.
  - intros (t' & b & a & Ea & L & Z & K). exists t', (announced missed ++ b), a. rewrite Ea, <- app_assoc. repeat split; assumption.
Qed.

(** In a build without the feature mdns the bit is not seen: the outdated record stays, and is given. *)
Definition ex_says (flush : bool) (a : N) : packet := mkPacket (mkheader 0 (hflags (header_new_reply 0 StandardQuery)) 0 1 0 0) [] [mkRR ex_www A flush CIN 120 (DA a)] [] [].
Lemma says_ok c b a : mdns c = true -> a < 4294967296 -> packet_plain_ok c (ex_says b a) /\ small_sections (ex_says b a).
Proof.
  intros Mc L. split; [|unfold small_sections; cbn; lia]. split; [unfold header_typed; cbn; lia|]. split; [constructor|]. apply Forall_cons; [|apply Forall_nil].
  destruct (host_ok c ex_www 120 a ex_name_ok eq_refl L) as (((H1 & H2 & H3 & H4 & H5 & _) & T & X) & Y). split; [|exact Y]. split; [|split; [exact T|exact X]].
  split; [exact H1|]. split; [exact H2|]. split; [exact H3|]. split; [exact H4|]. split; [exact H5|]. cbn. congruence.
Qed.
Theorem C129_feature_refuted : forall (d o : bool) (h : hasher), exists (ms : list (N * packet * bytes)) (got : list (N * packet)) (r : rr),
  multicast (mkcfg true d o) ms /\ heard (mkcfg false d o) ms got /\ In r (gives got 20) /\ ~ in_force (announced ms) 20 r.
Proof.
  intros d o h. set (c := mkcfg true d o).
  destruct (says_ok c false 7 eq_refl eq_refl) as (O1 & S1), (says_ok c true 8 eq_refl eq_refl) as (O2 & S2).
  destruct (C28_plain_roundtrip_partial c _ O1 S1) as (b1 & E1 & _), (C28_plain_roundtrip_partial c _ O2 S2) as (b2 & E2 & _).
  exists [(0, ex_says false 7, b1); (10, ex_says true 8, b2)], [(0, ex_says false 7); (10, ex_says false 8)], (mkRR ex_www A false CIN 120 (DA 7)).
  split; [repeat (apply Forall_cons; [exists h; apply sent_plain; assumption|]); apply Forall_nil|]. split.
  - destruct d, o; vm_compute in E1, E2; apply Ok_inj in E1, E2; subst b1 b2; repeat (apply Forall2_cons; [split; [reflexivity|vm_compute; reflexivity]|]); apply Forall2_nil.
  - split; [vm_compute; auto|]. intros (t & b & a & E & L & Z & K). cbn in E. destruct b as [|e b].
    + injection E as <- <-. apply (K (10, mkRR ex_www A true CIN 120 (DA 8))); [left; reflexivity|]. split; [repeat split|]. right. split; [reflexivity|cbn; lia].
    + injection E as _ E. destruct b as [|e2 b]; [injection E as ? E; discriminate|]. injection E as _ E. destruct b; discriminate E.
Qed.
(** A host changes its address, says so again and says good-bye. *)
Example C129_ex : exists b1 b2 b3, multicast ex_cfg [(0, ex_says false 7, b1); (10, ex_says true 8, b2); (11, ex_says true 9, b3)] /\
  in_force (announced [(0, ex_says false 7, b1); (10, ex_says true 8, b2); (11, ex_says true 9, b3)]) 100 (mkRR ex_www A true CIN 120 (DA 8)) /\
  gives [(0, ex_says false 7); (10, ex_says true 8); (11, ex_says true 9)] 129 = [mkRR ex_www A true CIN 120 (DA 8); mkRR ex_www A true CIN 120 (DA 9)] /\
  gives [(0, ex_says false 7); (10, ex_says true 8); (11, ex_says true 9)] 130 = [mkRR ex_www A true CIN 120 (DA 9)] /\
  hear [(10, mkRR ex_www A true CIN 120 (DA 8))] (11, mkRR ex_www A false CIN 0 (DA 8)) = [] /\
  In (10, mkRR ex_www A true CIN 120 (DA 8)) (announced [(10, ex_says true 8, b2); (11, ex_says true 9, b3)]) /\ (forall e, In e (announced [(0, ex_says false 7, b1)]) -> fst e + 1 < 10).
Proof.
  destruct (says_ok ex_cfg false 7 eq_refl eq_refl) as (O1 & S1), (says_ok ex_cfg true 8 eq_refl eq_refl) as (O2 & S2), (says_ok ex_cfg true 9 eq_refl eq_refl) as (O3 & S3).
  destruct (C28_plain_roundtrip_partial _ _ O1 S1) as (b1 & E1 & _), (C28_plain_roundtrip_partial _ _ O2 S2) as (b2 & E2 & _), (C28_plain_roundtrip_partial _ _ O3 S3) as (b3 & E3 & _).
  exists b1, b2, b3. split; [repeat (apply Forall_cons; [exists ex_hash; apply sent_plain; assumption|]); apply Forall_nil|]. split; [|do 3 (split; [reflexivity|]); split; [left; reflexivity|intros e [<-|[]]; reflexivity]].
  exists 10, [(0, mkRR ex_www A false CIN 120 (DA 7))], [(11, mkRR ex_www A true CIN 120 (DA 9))]. split; [reflexivity|]. split; [cbn; lia|]. split; [discriminate|].
  intros new [<-|[]] (_ & [D|(_ & L)]); [discriminate D|cbn in L; lia].
Qed.
Print Assumptions C129_exact_partial.
Print Assumptions C129_late_partial.
Print Assumptions C129_feature_refuted.
