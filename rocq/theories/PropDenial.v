(** * C123: NSEC records deny exactly the names and types that a zone does not have *)
From Coq Require Import Lia ZifyBool ZifyNat ZifyN Sorting.Sorted.
From Verif Require Import Base Buffer Fqdn Header Types RDataBasic RDataSec RData Packet Dnssec BaseFacts FqdnFacts CodeSpec RDataSpec RDataReads CompressSpec ChunkFacts
  RecordSpec HeaderSpec PacketFacts ObjectSpec Bitmap Api Construct PropName PropRecord PropPacket PropDnssec PropObject PropTrust.

(** A zone: its names with the types each of them has.  [key] is what names are compared by: the resolver and the server compare [key f] and [key g] with FQDN's order. *)
Definition entry : Type := fqdn * tset.
Definition key_lt (key : fqdn -> fqdn) (f g : fqdn) : Prop := fqdn_cmp (key f) (key g) = Lt.
Definition in_order (key : fqdn -> fqdn) (es : list entry) : Prop := StronglySorted (fun a b => key_lt key (fst a) (fst b)) es.
(** The server gives each name an NSEC record with the next name, and the last one the first name (RFC 4034, 4.1). *)
Fixpoint chained (ttl : N) (first : fqdn) (es : list entry) : list rr :=
  match es with
  | [] => []
  | (f, ts) :: es' => mkRR f NSEC false CIN ttl (DNSEC (nsec_with_types (match es' with [] => first | (g, _) :: _ => g end) ts)) :: chained ttl first es'
  end.
Definition nsec_records (ttl : N) (es : list entry) : list rr := chained ttl (match es with [] => [] | (f, _) :: _ => f end) es.
(** The resolver takes a name as denied if it lies between a name and the next (RFC 4035, 5.4); the last record covers what is behind it and before the first. *)
Definition covers (key : fqdn -> fqdn) (f next q : fqdn) : Prop :=
  key_lt key f q /\ key_lt key q next \/ ~ key_lt key f next /\ (key_lt key f q \/ key_lt key q next).
Definition name_denied (key : fqdn -> fqdn) (rs : list rr) (q : fqdn) : Prop :=
  exists r x, In r rs /\ rr_data r = DNSEC x /\ covers key (rr_name r) (ns_next x) q.
Definition type_denied (key : fqdn -> fqdn) (rs : list rr) (q : fqdn) (t : rtype) : Prop :=
  exists r x, In r rs /\ rr_data r = DNSEC x /\ key (rr_name r) = key q /\ ~ In t (ns_types x).

Section Order.
  Variable key : fqdn -> fqdn.
  Notation lt := (key_lt key).
  Lemma lt_trans a b d : lt a b -> lt b d -> lt a d.
  Proof. destruct C64_order_partial as ((_ & _ & T) & _). apply T. Qed.
  Lemma lt_irrefl a b : key a = key b -> ~ lt a b.
  Proof. intros E H. unfold key_lt in H. rewrite E in H. destruct C64_order_partial as ((Q & _ & _) & _). rewrite (proj2 (Q _ _ I I) eq_refl) in H. discriminate H. Qed.
  Lemma lt_total a b : lt a b \/ key a = key b \/ lt b a.
  Proof.
    unfold key_lt. destruct C64_order_partial as ((Q & O & _) & _). destruct (fqdn_cmp (key a) (key b)) eqn:E; [right; left; apply Q; auto|left; reflexivity|].
    right. right. rewrite O, E. reflexivity.
  Qed.

  Lemma chained_in ttl first es r : In r (chained ttl first es) ->
    exists pre f ts post, es = pre ++ (f, ts) :: post /\ rr_name r = f /\
      rr_data r = DNSEC (mkNsec (match post with [] => first | (g, _) :: _ => g end) ts).
  Proof.
    induction es as [|(f, ts) es IH]; [intros []|]. cbn [chained]. intros [<-|H].
    - exists [], f, ts, es. repeat split.
    - destruct (IH H) as (pre & f' & ts' & post & -> & A & B). exists ((f, ts) :: pre), f', ts', post. repeat split; assumption.
  Qed.
  Lemma chained_all ttl first es pre f ts post : es = pre ++ (f, ts) :: post ->
    In (mkRR f NSEC false CIN ttl (DNSEC (mkNsec (match post with [] => first | (g, _) :: _ => g end) ts))) (chained ttl first es).
  Proof. intros ->. induction pre as [|(g, us) pre IH]; cbn [app chained]; [left; reflexivity|right; exact IH]. Qed.

  Lemma sorted_app pre e post : in_order key (pre ++ e :: post) ->
    (forall a, In a pre -> lt (fst a) (fst e)) /\ (forall b, In b post -> lt (fst e) (fst b)) /\ in_order key (e :: post).
  Proof.
    induction pre as [|a pre IH]; cbn [app]; intros H; inversion H as [|x l S F]; subst.
    - split; [intros a []|]. split; [apply Forall_forall, F|exact H].
    - destruct (IH S) as (A & B & D). split; [|split; assumption]. intros b [<-|Hb]; [|apply A, Hb].
      rewrite Forall_forall in F. apply F, in_or_app. right. left. reflexivity.
  Qed.

  (** A name that is covered by a record of the chain is none of the names. *)
  Lemma covered_absent ttl es r x q : in_order key es -> In r (nsec_records ttl es) -> rr_data r = DNSEC x -> covers key (rr_name r) (ns_next x) q ->
    forall e, In e es -> key (fst e) <> key q.
  Proof.
    intros S H E Cv. unfold nsec_records in H. apply chained_in in H. destruct H as (pre & f & ts & post & Es & N0 & D). rewrite D in E. injection E as <-. rewrite N0 in Cv. cbn [ns_next] in Cv.
    rewrite Es in S |- *. destruct (sorted_app _ _ _ S) as (A & B & S').
    destruct post as [|(g, us) post].
    - (* the last one *)
      assert (Fst : forall e, In e (pre ++ [(f, ts)]) -> ~ lt (fst e) (match es with [] => [] | (f0, _) :: _ => f0 end)).
      { rewrite Es. intros e I. destruct pre as [|(h, vs) pre]; cbn [app] in *; [destruct I as [<-|[]]; apply lt_irrefl; reflexivity|].
        destruct I as [<-|I]; [apply lt_irrefl; reflexivity|]. inversion S as [|x l _ F]; subst. rewrite Forall_forall in F. specialize (F e I). cbn [fst] in F |- *.
        intros L. exact (lt_irrefl _ _ eq_refl (lt_trans _ _ _ F L)). }
      assert (Lst : forall e, In e (pre ++ [(f, ts)]) -> ~ lt f (fst e)).
      { intros e I L. apply in_app_or in I. destruct I as [I|[<-|[]]]; [|exact (lt_irrefl _ _ eq_refl L)]. exact (lt_irrefl _ _ eq_refl (lt_trans _ _ _ L (A e I))). }
      intros e I K. destruct Cv as [(L1 & L2)|(_ & [L|L])].
      + apply (Lst e I). unfold key_lt in *. rewrite K. exact L1.
      + apply (Lst e I). unfold key_lt in *. rewrite K. exact L.
      + apply (Fst e I). unfold key_lt in *. rewrite K. exact L.
    - assert (L : lt f g) by (apply (B (g, us)); left; reflexivity).
      destruct Cv as [(L1 & L2)|(X & _)]; [|contradiction].
      intros e I K. apply in_app_or in I. cbn [In] in I. destruct I as [I|[<-|[<-|I]]].
      + apply (lt_irrefl _ _ K). exact (lt_trans _ _ _ (A e I) L1).
      + exact (lt_irrefl _ _ K L1).
      + symmetry in K. exact (lt_irrefl _ _ K L2).
      + inversion S' as [|x l S2 _]; subst. inversion S2 as [|x l _ F2]; subst. rewrite Forall_forall in F2. specialize (F2 e I). cbn [fst] in F2.
        symmetry in K. exact (lt_irrefl _ _ K (lt_trans _ _ _ L2 F2)).
  Qed.

  Lemma between es q : es <> [] -> in_order key es -> (forall e, In e es -> key (fst e) <> key q) -> lt (match es with [] => [] | (f, _) :: _ => f end) q ->
    exists pre f ts post, es = pre ++ (f, ts) :: post /\ lt f q /\ match post with [] => True | (g, _) :: _ => lt q g end.
  Proof.
    induction es as [|(f, ts) es IH]; [contradiction|]. intros _ S Ab L. destruct es as [|(g, us) es].
    - exists [], f, ts, []. repeat split. exact L.
    - destruct (lt_total q g) as [Q|[Q|Q]].
      + exists [], f, ts, ((g, us) :: es). repeat split; assumption.
      + exfalso. apply (Ab (g, us)); [right; left; reflexivity|]. symmetry. exact Q.
      + inversion S as [|x l S' _]; subst. destruct (IH ltac:(discriminate) S' (fun e I => Ab e (or_intror I)) Q) as (pre & f' & ts' & post & E & A & B).
        exists ((f, ts) :: pre), f', ts', post. cbn [app]. rewrite E. repeat split; assumption.
  Qed.
  Lemma absent_covered ttl es q : es <> [] -> in_order key es -> (forall e, In e es -> key (fst e) <> key q) ->
    exists r x, In r (nsec_records ttl es) /\ rr_data r = DNSEC x /\ covers key (rr_name r) (ns_next x) q.
  Proof.
    intros NE S Ab. set (first := match es with [] => [] | (f, _) :: _ => f end).
    assert (Top : forall pre f ts, es = pre ++ [(f, ts)] -> ~ lt f first).
    { intros pre f ts E. unfold first. rewrite E in *. destruct pre as [|(h, vs) pre]; cbn [app]; [apply lt_irrefl; reflexivity|].
      destruct (sorted_app ((h, vs) :: pre) (f, ts) [] S) as (A & _). specialize (A (h, vs) (or_introl eq_refl)). cbn [fst] in A. intros L. exact (lt_irrefl _ _ eq_refl (lt_trans _ _ _ A L)). }
    destruct (lt_total q first) as [L|[L|L]].
    - destruct (exists_last NE) as (pre & (f, ts) & E). pose proof (chained_all ttl first es pre f ts [] E) as C.
      eexists. eexists. split; [exact C|]. split; [reflexivity|]. cbn [rr_name ns_next]. right. split; [exact (Top pre f ts E)|right; exact L].
    - exfalso. destruct es as [|(f, ts) es]; [contradiction|]. apply (Ab (f, ts) (or_introl eq_refl)). symmetry. exact L.
    - destruct (between es q NE S Ab L) as (pre & f & ts & post & E & A & B). pose proof (chained_all ttl first es pre f ts post E) as C.
      eexists. eexists. split; [exact C|]. split; [reflexivity|]. cbn [rr_name ns_next]. destruct post as [|(g, us) post].
      + right. split; [exact (Top pre f ts E)|left; exact A].
      + left. split; assumption.
  Qed.
End Order.

(** The records are sent in any number of messages, together with any others. *)
Definition sent_all (c : cfg) (ps : list packet) (outs : list bytes) : Prop := Forall2 (fun p out => exists h, sent c h p out) ps outs.
Definition with_chain (ttl : N) (es : list entry) (ps : list packet) : Prop :=
  forall r x, rr_data r = DNSEC x -> (In r (flat_map records_of ps) <-> In r (nsec_records ttl es)).
Definition received (c : cfg) (outs : list bytes) (rs : list rr) : Prop :=
  exists ps, Forall2 (fun out p => packet_try_from c out = Ok p) outs ps /\ rs = flat_map records_of ps.
Lemma all_received c ps outs : sent_all c ps outs -> received c outs (flat_map records_of ps).
Proof.
  intros H. induction H as [|p out ps outs (h & S) H (qs & F & E)]; [exists []; repeat constructor|].
  destruct (sent_arrives c h p out S) as (p' & R & Q). exists (p' :: qs). split; [constructor; assumption|]. cbn [flat_map]. rewrite Q, E. reflexivity.
Qed.

(** What names are compared by may be chosen: with one choice for the server and the resolver, the names denied are the names that no name of the zone
    compares equal to, and the types denied at a name those that it does not have. *)
Lemma denied_iff key c ttl es ps outs : es <> [] -> in_order key es -> with_chain ttl es ps -> sent_all c ps outs ->
  exists rs, received c outs rs /\
    (forall q, name_denied key rs q <-> forall e, In e es -> key (fst e) <> key q) /\
    (forall q t, type_denied key rs q t <-> exists e, In e es /\ key (fst e) = key q /\ ~ In t (snd e)).
Proof.
  intros NE S W Sa. exists (flat_map records_of ps). split; [exact (all_received c ps outs Sa)|]. split.
  - intros q. split.
    + intros (r & x & I & D & Cv). apply (W r x D) in I. exact (covered_absent key ttl es r x q S I D Cv).
    + intros Ab. destruct (absent_covered key ttl es q NE S Ab) as (r & x & I & D & Cv). exists r, x. split; [apply (W r x D), I|]. split; assumption.
  - intros q t. split.
    + intros (r & x & I & D & K & Nt). apply (W r x D) in I. apply chained_in in I. destruct I as (pre & f & ts & post & E & N0 & D'). rewrite D' in D. injection D as <-. cbn [ns_types] in Nt.
      exists (f, ts). split; [rewrite E; apply in_elt|]. cbn [fst snd]. rewrite <- N0. split; assumption.
    + intros ((f, ts) & I & K & Nt). apply in_split in I. destruct I as (pre & post & E). cbn [fst snd] in K, Nt.
      pose proof (chained_all ttl (match es with [] => [] | (f, _) :: _ => f end) es pre f ts post E) as C. fold (nsec_records ttl es) in C.
      eexists. eexists. split; [eapply W; [|exact C]; reflexivity|]. split; [reflexivity|]. split; assumption.
Qed.

(** With the order that FQDN has: a name is denied exactly if the zone does not have it, a type at a name of the zone exactly if the name does not have it. *)
Theorem C123_own_order_partial : forall (c : cfg) (ttl : N) (es : list entry) (ps : list packet) (outs : list bytes),
  es <> [] -> StronglySorted (fun a b => fqdn_cmp (fst a) (fst b) = Lt) es -> with_chain ttl es ps -> sent_all c ps outs ->
  exists rs, received c outs rs /\
    (forall q, name_denied (fun f => f) rs q <-> ~ In q (map fst es)) /\
    (forall f ts t, In (f, ts) es -> (type_denied (fun f => f) rs f t <-> ~ In t ts)).
Proof.
  intros c ttl es ps outs NE S W Sa. destruct (denied_iff (fun f => f) c ttl es ps outs NE S W Sa) as (rs & R & N0 & T). exists rs. split; [exact R|]. split.
  - intros q. rewrite N0. rewrite in_map_iff. split; [intros H (e & E & I); exact (H e I E)|]. intros H e I E. apply H. exists e. split; assumption.
  - intros f ts t I. rewrite T. split; [|intros Nt; exists (f, ts); repeat split; assumption].
    intros ((g, us) & J & E & Nt). cbn [fst snd] in E, Nt. subst g.
    apply in_split in I. destruct I as (pre & post & Es). rewrite Es in S, J. destruct (sorted_app (fun f => f) pre (f, ts) post S) as (A & B & _).
    apply in_app_or in J. destruct J as [J|[J|J]]; [exfalso; exact (lt_irrefl (fun f => f) f f eq_refl (A _ J))|injection J as ->; exact Nt|exfalso; exact (lt_irrefl (fun f => f) f f eq_refl (B _ J))].
Qed.

(** With the canonical order of RFC 4034: if both sides turn the names round and write them in lower case before they compare them. *)
Definition turned (f : fqdn) : fqdn := rev (map (map fold_case) f).
Lemma turned_lt f g : key_lt turned f g <-> canonically_before f g.
Proof. unfold key_lt, turned, canonically_before. apply C64_order_partial. Qed.
Lemma turned_eq f g : turned f = turned g <-> same_name f g.
Proof. unfold turned, same_name. split; [|intros ->; reflexivity]. intros E. apply (f_equal (@rev _)) in E. rewrite !rev_involutive in E. exact E. Qed.
Theorem C123_canonical_partial : forall (c : cfg) (ttl : N) (es : list entry) (ps : list packet) (outs : list bytes),
  es <> [] -> StronglySorted (fun a b => canonically_before (fst a) (fst b)) es -> with_chain ttl es ps -> sent_all c ps outs ->
  exists rs, received c outs rs /\
    (forall q, name_denied turned rs q <-> forall f ts, In (f, ts) es -> ~ same_name f q) /\
    (forall q f ts t, In (f, ts) es -> same_name f q -> (type_denied turned rs q t <-> ~ In t ts)).
Proof.
  intros c ttl es ps outs NE S W Sa.
  assert (S' : in_order turned es) by (clear - S; induction S as [|e l S IH F]; constructor; [exact IH|]; eapply Forall_impl; [|exact F]; intros b H; apply turned_lt, H).
  destruct (denied_iff turned c ttl es ps outs NE S' W Sa) as (rs & R & N0 & T). exists rs. split; [exact R|]. split.
  - intros q. rewrite N0. split; [intros H f ts I E; apply turned_eq in E; exact (H (f, ts) I E)|]. intros H (f, ts) I E. apply turned_eq in E. exact (H f ts I E).
  - intros q f ts t I Q. rewrite T. split; [|intros Nt; exists (f, ts); split; [exact I|]; split; [apply turned_eq, Q|exact Nt]].
    intros ((g, us) & J & E & Nt). cbn [fst snd] in E, Nt. apply turned_eq in Q. rewrite <- Q in E.
    apply in_split in I. destruct I as (pre & post & Es). rewrite Es in S', J. destruct (sorted_app turned pre (f, ts) post S') as (A & B & _).
    apply in_app_or in J. destruct J as [J|[J|J]]; [exfalso; exact (lt_irrefl turned g f E (A _ J))|injection J as _ ->; exact Nt|exfalso; symmetry in E; exact (lt_irrefl turned f g E (B _ J))].
Qed.

(** False for a zone in the canonical order, as every signer makes it, when the resolver compares with FQDN's own order: names that exist are denied. *)
Definition abc : list entry := [([[122]], [A]); ([[97]; [122]], [A]); ([[120]; [97]; [122]], [A]); ([[98]; [122]], [A])].
Theorem C123_order_refuted : exists (es : list entry) (q : fqdn), StronglySorted (fun a b => canonically_before (fst a) (fst b)) es /\ In q (map fst es) /\
  forall ttl, name_denied (fun f => f) (nsec_records ttl es) q.
Proof.
  exists abc, [[98]; [122]]. split.
  - assert (E : in_order turned abc) by (repeat constructor).
    clear - E. induction E as [|e l S IH F]; constructor; [exact IH|]. eapply Forall_impl; [|exact F]. intros b H. apply turned_lt, H.
  - split; [right; right; right; left; reflexivity|]. intros ttl. eexists. eexists. split; [right; left; reflexivity|]. split; [reflexivity|]. left. split; reflexivity.
Qed.
(** Nor is the case of letters ignored: whatever the zone, a name asked for in another spelling than the zone's is denied. *)
Theorem C123_case_refuted : forall (c : cfg) (ttl : N) (es : list entry) (ps : list packet) (outs : list bytes) (f q : fqdn),
  StronglySorted (fun a b => fqdn_cmp (fst a) (fst b) = Lt) es -> with_chain ttl es ps -> sent_all c ps outs ->
  In f (map fst es) -> same_name f q -> ~ In q (map fst es) -> exists rs, received c outs rs /\ name_denied (fun f => f) rs q.
Proof.
  intros c ttl es ps outs f q S W Sa I _ Nq. destruct (C123_own_order_partial c ttl es ps outs) as (rs & R & H & _); try assumption; [intros ->; destruct I|].
  exists rs. split; [exact R|]. apply H, Nq.
Qed.
(** A zone of three names in two messages, one compressed, with another record beside the chain; in both orders. *)
Definition ex_zone : list entry := [([[98]; [122]], [A; MX]); ([[119]; [98]; [122]], [A]); ([[122]], [NS; SOA; MX])].
Definition ex_zone_canonical : list entry := [([[122]], [NS; SOA; MX]); ([[98]; [122]], [A; MX]); ([[119]; [98]; [122]], [A])].
Definition nsec_packet (n : N) (l : list rr) : packet :=
  mkPacket (mkheader n (hflags (header_new_reply 0 StandardQuery)) 0 (N.of_nat (length l)) 0 0) [] l [] [].
Definition ex_messages (es : list entry) : list packet :=
  [nsec_packet 1 (firstn 1 (nsec_records 60 es)); nsec_packet 2 (mkRR [[98]; [122]] A false CIN 60 (DA 7) :: skipn 1 (nsec_records 60 es))].
Lemma nsec_rr_ok f g ts : fqdn_ok f -> fqdn_ok g -> tset_typed ex_cfg ts -> tset_fits ex_cfg ts -> rr_ok ex_cfg (mkRR f NSEC false CIN 60 (DNSEC (mkNsec g ts))).
Proof. intros F G T Fi. split; [repeat split; try exact F; try reflexivity; discriminate|]. split; [split; [reflexivity|exact T]|]. split; assumption. Qed.
Lemma ex_types : (tset_typed ex_cfg [A; MX] /\ tset_fits ex_cfg [A; MX]) /\ (tset_typed ex_cfg [A] /\ tset_fits ex_cfg [A]) /\ (tset_typed ex_cfg [NS; SOA; MX] /\ tset_fits ex_cfg [NS; SOA; MX]).
Proof. repeat split; repeat constructor; try discriminate. Qed.
Lemma ex_names : fqdn_ok [[122]] /\ fqdn_ok [[98]; [122]] /\ fqdn_ok [[119]; [98]; [122]].
Proof. unfold fqdn_ok, label_ok. repeat split; repeat constructor; cbn; lia. Qed.
Lemma ex_messages_sent es : es = ex_zone \/ es = ex_zone_canonical -> exists outs, sent_all ex_cfg (ex_messages es) outs.
Proof.
  intros H. pose proof ex_types as ((T1 & F1) & (T2 & F2) & T3 & F3). pose proof ex_names as (N1 & N2 & N3).
  assert (X : exists o1 o2, sent ex_cfg ex_hash (nth 0 (ex_messages es) (nsec_packet 0 [])) o1 /\ sent ex_cfg ex_hash (nth 1 (ex_messages es) (nsec_packet 0 [])) o2).
  { destruct H as [-> | ->]; eexists; eexists; (split; [apply sent_plain; [|repeat split; discriminate|vm_compute; reflexivity]|
      apply sent_compressed; [|reflexivity|apply separates_b_true; vm_compute; reflexivity|vm_compute; reflexivity|vm_compute; discriminate]]).
    all: (split; [repeat split|]; split; [constructor|]).
    all: repeat (apply Forall_cons); try apply Forall_nil.
    all: try (split; [|split; [exact I|intros bs E; injection E as <-; vm_compute; discriminate]]).
    all: try (apply nsec_rr_ok; assumption).
    all: (split; [repeat split; try exact N2; try reflexivity; discriminate|]; split; [split; reflexivity|exact I]). }
  destruct X as (o1 & o2 & S1 & S2). exists [o1; o2]. constructor; [exists ex_hash; exact S1|]. constructor; [exists ex_hash; exact S2|constructor].
Qed.
Lemma ex_with_chain es : length es = 3%nat -> with_chain 60 es (ex_messages es).
Proof.
  intros L r x D. destruct es as [|(f1, t1) [|(f2, t2) [|(f3, t3) [|]]]]; try discriminate L. cbn. split.
  - intros [H|[H|[H|[H|[]]]]]; auto. subst r. discriminate D.
  - intros [H|[H|[H|[]]]]; auto.
Qed.
Example C123_ex : (exists outs, ex_zone <> [] /\ StronglySorted (fun a b => fqdn_cmp (fst a) (fst b) = Lt) ex_zone /\ with_chain 60 ex_zone (ex_messages ex_zone) /\ sent_all ex_cfg (ex_messages ex_zone) outs) /\
  (exists outs, ex_zone_canonical <> [] /\ StronglySorted (fun a b => canonically_before (fst a) (fst b)) ex_zone_canonical /\ with_chain 60 ex_zone_canonical (ex_messages ex_zone_canonical) /\
     sent_all ex_cfg (ex_messages ex_zone_canonical) outs) /\
  (same_name [[122]] [[90]] /\ In [[122]] (map fst ex_zone) /\ ~ In [[90]] (map fst ex_zone)).
Proof.
  split; [|split].
  - destruct (ex_messages_sent ex_zone (or_introl eq_refl)) as (outs & S). exists outs. split; [discriminate|]. split; [repeat constructor|]. split; [apply ex_with_chain; reflexivity|exact S].
  - destruct (ex_messages_sent ex_zone_canonical (or_intror eq_refl)) as (outs & S). exists outs. split; [discriminate|].
    split; [|split; [apply ex_with_chain; reflexivity|exact S]].
    assert (E : in_order turned ex_zone_canonical) by (repeat constructor).
    clear - E. induction E as [|e l S IH F]; constructor; [exact IH|]. eapply Forall_impl; [|exact F]. intros b H. apply turned_lt, H.
  - split; [reflexivity|]. split; [right; right; left; reflexivity|]. intros [H|[H|[H|[]]]]; discriminate H.
Qed.

Print Assumptions C123_own_order_partial.
Print Assumptions C123_canonical_partial.
Print Assumptions C123_order_refuted.
Print Assumptions C123_case_refuted.
