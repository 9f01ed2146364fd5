(** * C125: two hosts that probe for the same name agree on which of them has lost *)
From Coq Require Import Lia ZifyBool ZifyNat ZifyN Permutation Sorting.Sorted.
From Verif Require Import Base Buffer Fqdn Header Types RDataBasic RDataSec RData Packet BaseFacts BitmapFacts FqdnFacts CodeSpec RDataSpec RDataReads CompressSpec ChunkFacts
  RecordSpec HeaderSpec PacketFacts ObjectSpec ObjectFacts Api Sets PropName PropRecord PropPacket PropSets PropTrust PropAlias.

(** What a host does with the records it proposes and those of the other host (RFC 6762, 8.2): it sorts both lists by class, type and octets of the data,
    all three with the orders that the library and Rust give them, and compares the lists; the earlier one has lost. *)
Definition octets (c : cfg) (r : rr) : bytes := match rdata_to_bytes c (rr_data r) with Ok b => b | _ => [] end.
Definition rank (c : cfg) (a b : rr) : comparison :=
  match rclass_cmp (rr_class a) (rr_class b) with
  | Eq => match rtype_cmp (rr_type a) (rr_type b) with Eq => lex N.compare (octets c a) (octets c b) | o => o end
  | o => o
  end.
Definition sorted_from (c : cfg) (l l' : list rr) : Prop := Permutation l l' /\ StronglySorted (fun a b => rank c a b <> Gt) l'.
Definition verdict (c : cfg) (mine theirs : list rr) : comparison := lex (rank c) mine theirs.
(** What a record proposes, apart from its name and TTL. *)
Definition said (r : rr) : rclass * rdata := (rr_class r, rr_data r).

Definition key (c : cfg) (r : rr) : rclass * rtype * bytes := (rr_class r, rr_type r, octets c r).
Definition kcmp (a b : rclass * rtype * bytes) : comparison :=
  match rclass_cmp (fst (fst a)) (fst (fst b)) with
  | Eq => match rtype_cmp (snd (fst a)) (snd (fst b)) with Eq => lex N.compare (snd a) (snd b) | o => o end
  | o => o
  end.
Lemma octet_eq a b : lex N.compare a b = Eq <-> a = b. Proof. apply lex_eq, N.compare_eq_iff. Qed.
Lemma rtype_cmp_eq a b : rtype_cmp a b = Eq <-> a = b.
Proof. rewrite (proj1 (C91_type_order a b)), N.compare_eq_iff. split; [apply rtype_code_inj|intros ->; reflexivity]. Qed.
Lemma kcmp_total : ord_contract (fun _ => True) kcmp.
Proof.
  destruct C91_class_partial as ((Q & O & T) & _). split; [|split].
  - intros ((x, t), b) ((x', t'), b') _ _. unfold kcmp. cbn [fst snd]. specialize (Q x x' I I). destruct (rclass_cmp x x').
    + pose proof (rtype_cmp_eq t t') as Q2. destruct (rtype_cmp t t').
      * rewrite octet_eq. pose proof (proj1 Q eq_refl). pose proof (proj1 Q2 eq_refl). split; [intros ->; congruence|intros E; injection E as _ _ ->; reflexivity].
      * split; [discriminate|intros E; injection E as _ E _; apply Q2 in E; discriminate E].
      * split; [discriminate|intros E; injection E as _ E _; apply Q2 in E; discriminate E].
    + split; [discriminate|intros E; injection E as E _ _; apply Q in E; discriminate E].
    + split; [discriminate|intros E; injection E as E _ _; apply Q in E; discriminate E].
  - intros ((x, t), b) ((x', t'), b'). unfold kcmp. cbn [fst snd]. rewrite (O x x'). destruct (rclass_cmp x x'); cbn [CompOpp]; try reflexivity.
    replace (rtype_cmp t' t) with (CompOpp (rtype_cmp t t')) by (rewrite (proj1 (C91_type_order t t')), (proj1 (C91_type_order t' t)), (N.compare_antisym (rtype_code t) (rtype_code t')); reflexivity).
    destruct (rtype_cmp t t'); cbn [CompOpp]; try reflexivity. apply lex_opp. intros n m. apply N.compare_antisym.
  - intros ((x, t), b) ((x', t'), b') ((x2, t2), b2). unfold kcmp. cbn [fst snd].
    pose proof (Q x x' I I) as Q1. pose proof (Q x' x2 I I) as Q2. pose proof (T x x' x2) as Tx.
    destruct (rclass_cmp x x') eqn:E1; [|intros _|discriminate]; destruct (rclass_cmp x' x2) eqn:E2; try discriminate; intros H.
    + pose proof (proj1 Q1 eq_refl) as <-. rewrite E2.
      pose proof (rtype_cmp_eq t t') as R1. pose proof (rtype_cmp_eq t' t2) as R2. intros H2.
      assert (Tt : rtype_cmp t t' = Lt -> rtype_cmp t' t2 = Lt -> rtype_cmp t t2 = Lt).
      { rewrite (proj1 (C91_type_order t t')), (proj1 (C91_type_order t' t2)), (proj1 (C91_type_order t t2)), !N.compare_lt_iff. lia. }
      destruct (rtype_cmp t t') eqn:F1; [|clear H|discriminate]; destruct (rtype_cmp t' t2) eqn:F2; try discriminate.
      * pose proof (proj1 R1 eq_refl) as <-. rewrite F2. revert H H2. apply lex_trans; [apply N.compare_eq_iff|]. intros n m k. rewrite !N.compare_lt_iff. lia.
      * pose proof (proj1 R1 eq_refl) as <-. rewrite F2. reflexivity.
      * pose proof (proj1 R2 eq_refl) as <-. rewrite F1. reflexivity.
      * rewrite (Tt eq_refl eq_refl). reflexivity.
    + pose proof (proj1 Q1 eq_refl) as <-. rewrite E2. reflexivity.
    + pose proof (proj1 Q2 eq_refl) as <-. rewrite E1. reflexivity.
    + rewrite (Tx eq_refl eq_refl). reflexivity.
Qed.
Lemma sorted_unique {X} (cmp : X -> X -> comparison) : ord_contract (fun _ => True) cmp -> forall l l', Permutation l l' ->
  StronglySorted (fun a b => cmp a b <> Gt) l -> StronglySorted (fun a b => cmp a b <> Gt) l' -> l = l'.
Proof.
  intros (Q & O & _). induction l as [|a l IH]; intros l' P S S'; [apply Permutation_nil in P; congruence|].
  destruct l' as [|b l']; [apply Permutation_sym, Permutation_nil in P; discriminate P|]. inversion S as [|? ? S1 F1]; subst. inversion S' as [|? ? S2 F2]; subst. rewrite Forall_forall in F1, F2.
  assert (E : a = b).
  { destruct (Permutation_in a P (or_introl eq_refl)) as [E|Ia]; [congruence|]. destruct (Permutation_in b (Permutation_sym P) (or_introl eq_refl)) as [E|Ib]; [exact E|].
    specialize (F1 b Ib). specialize (F2 a Ia). rewrite (O a b) in F2. apply (Q a b I I). destruct (cmp a b); cbn [CompOpp] in *; congruence. }
  subst b. f_equal. apply IH; try assumption. exact (Permutation_cons_inv P).
Qed.
Lemma sorted_keys c l l' l2 : Permutation l l2 -> sorted_from c l l' -> forall l2', sorted_from c l2 l2' -> map (key c) l' = map (key c) l2'.
Proof.
  intros P (P1 & S1) l2' (P2 & S2). assert (Sk : forall m, StronglySorted (fun a b => rank c a b <> Gt) m -> StronglySorted (fun a b => kcmp a b <> Gt) (map (key c) m)).
  { intros m S. induction S as [|r m S IH F]; cbn [map]; constructor; [exact IH|]. rewrite Forall_map. exact F. }
  apply (sorted_unique kcmp kcmp_total); [|apply Sk, S1|apply Sk, S2]. apply Permutation_map. eapply Permutation_trans; [apply Permutation_sym, P1|]. eapply Permutation_trans; [exact P|exact P2].
Qed.
Lemma verdict_keys c a b : verdict c a b = lex kcmp (map (key c) a) (map (key c) b).
Proof. revert b. induction a as [|x a IH]; intros [|y b]; cbn [verdict lex map]; try reflexivity. change (kcmp (key c x) (key c y)) with (rank c x y). destruct (rank c x y); [apply IH|reflexivity..]. Qed.

Lemma sent_sections c h p out : sent c h p out -> (exists p', packet_try_from c out = Ok p' /\ p_authorities p' = p_authorities p) /\ Forall (rr_ok c) (records_of p).
Proof.
  intros [O S E|O C H E L].
  - destruct (C28_plain_roundtrip_partial c p O S) as (bs & Eb & R). rewrite Eb in E. apply Ok_inj in E. subst bs. specialize (R []). rewrite app_nil_r in R.
    split; [eexists; split; [exact R|reflexivity]|]. destruct O as (_ & _ & F). eapply Forall_impl; [|exact F]. intros r (X & _). exact X.
  - split; [exists p; split; [|reflexivity]|apply O]. pose proof (C29_compressed_roundtrip_partial c h p out O C H E L []) as R. rewrite app_nil_r in R. exact R.
Qed.
Lemma key_says c r r' : rr_ok c r -> rr_ok c r' -> key c r = key c r' -> said r = said r'.
Proof.
  intros ((_ & _ & T & _) & Ty & F) ((_ & _ & T' & _) & Ty' & F') E. unfold key, octets in E. injection E as E1 E2 E3. unfold said. f_equal; [exact E1|].
  destruct (C23_rdata_roundtrip_partial c _ Ty F) as (b & W & R). destruct (C23_rdata_roundtrip_partial c _ Ty' F') as (b' & W' & R'). rewrite W, W' in E3. subst b'.
  specialize (R []). specialize (R' []). rewrite <- T in R. rewrite <- T' in R'. rewrite E2 in R. rewrite R in R'. injection R' as E. exact E.
Qed.
Lemma says_key c r r' : rr_ok c r -> rr_ok c r' -> said r = said r' -> key c r = key c r'.
Proof. intros ((_ & _ & T & _) & _) ((_ & _ & T' & _) & _) E. unfold said in E. injection E as E1 E2. unfold key, octets. rewrite T, T', E1, E2. reflexivity. Qed.
Lemma keys_say c l l' : Forall (rr_ok c) l -> Forall (rr_ok c) l' -> Permutation (map (key c) l) (map (key c) l') <-> Permutation (map said l) (map said l').
Proof.
  intros F F'. rewrite Forall_forall in F, F'.
  assert (X : forall (A B : Type) (f : rr -> A) (g : rr -> B) (l l' : list rr), (forall r r', In r (l ++ l') -> In r' (l ++ l') -> f r = f r' -> g r = g r') ->
    Permutation (map f l) (map f l') -> Permutation (map g l) (map g l')).
  { clear. intros A B f g l. induction l as [|r l IH]; intros l' H P.
    - apply Permutation_nil in P. destruct l'; [constructor|discriminate P].
    - cbn [map] in P. pose proof (Permutation_in (f r) P (or_introl eq_refl)) as I. apply in_map_iff in I. destruct I as (r' & E & I). apply in_split in I. destruct I as (l1 & l2 & ->).
      rewrite map_app in P. cbn [map] in P. rewrite <- E in P. apply Permutation_cons_app_inv in P. rewrite <- map_app in P.
      apply IH in P; [|intros a b Ia Ib; apply H; (right + idtac); rewrite in_app_iff in *; rewrite ?in_app_iff in *; cbn [In]; tauto].
      rewrite map_app. cbn [map]. rewrite (H r r'); [|left; reflexivity|right; apply in_or_app; right; apply in_elt|symmetry; exact E]. apply Permutation_cons_app. rewrite <- map_app. exact P. }
  split; apply X; intros r r' I I'; [apply key_says|apply says_key]; apply in_app_or in I, I'; destruct I, I'; auto.
Qed.

(** Each host sends its proposal to the other in the authority section of a message, in either form; each compares its own records with those it has
    received, having sorted both in whatever way.  Then one has lost exactly if the other has won; and neither has exactly if both propose the same. *)
Theorem C125_agree_partial : forall (c : cfg) (h h' : hasher) (pa pb : packet) (outa outb : bytes), sent c h pa outa -> sent c h' pb outb ->
  exists pa' pb', packet_try_from c outa = Ok pa' /\ packet_try_from c outb = Ok pb' /\
  forall own_a got_b own_b got_a,
    sorted_from c (p_authorities pa) own_a -> sorted_from c (p_authorities pb') got_b ->
    sorted_from c (p_authorities pb) own_b -> sorted_from c (p_authorities pa') got_a ->
    verdict c own_b got_a = CompOpp (verdict c own_a got_b) /\
    (verdict c own_a got_b = Eq <-> Permutation (map said (p_authorities pa)) (map said (p_authorities pb))).
Proof.
  intros c h h' pa pb outa outb Sa Sb. destruct (sent_sections c h pa outa Sa) as ((pa' & Ra & Qa) & Fa). destruct (sent_sections c h' pb outb Sb) as ((pb' & Rb & Qb) & Fb).
  exists pa', pb'. split; [exact Ra|]. split; [exact Rb|]. rewrite Qa, Qb. intros own_a got_b own_b got_a S1 S2 S3 S4. rewrite !verdict_keys.
  rewrite <- (sorted_keys c _ _ _ (Permutation_refl _) S1 got_a S4), <- (sorted_keys c _ _ _ (Permutation_refl _) S2 own_b S3).
  destruct kcmp_total as (Q & O & T). split; [apply lex_opp; intros a b; apply O|]. rewrite lex_eq by (intros a b; apply Q; exact I).
  assert (Au : forall p, Forall (rr_ok c) (records_of p) -> Forall (rr_ok c) (p_authorities p)).
  { intros p F. rewrite Forall_forall in *. intros r I. apply F. unfold records_of. rewrite !in_app_iff. auto. }
  rewrite <- (keys_say c _ _ (Au pa Fa) (Au pb Fb)). destruct S1 as (P1 & X1), S2 as (P2 & X2). split.
  - intros E. eapply Permutation_trans; [apply (Permutation_map (key c)), P1|]. rewrite E. apply Permutation_sym, Permutation_map, P2.
  - intros P. assert (Sk : forall m, StronglySorted (fun a b => rank c a b <> Gt) m -> StronglySorted (fun a b => kcmp a b <> Gt) (map (key c) m)).
    { intros m S. induction S as [|r m S IH F]; cbn [map]; constructor; [exact IH|]. rewrite Forall_map. exact F. }
    apply (sorted_unique kcmp kcmp_total); [|apply Sk, X1|apply Sk, X2].
    eapply Permutation_trans; [apply Permutation_sym, (Permutation_map (key c)), P1|]. eapply Permutation_trans; [exact P|]. apply Permutation_map, P2.
Qed.

(** The order is the one that RFC 6762 prescribes, the number of the class, then the number of the type, then the octets, for the four classes that have names; *)
Theorem C125_order_partial : forall (c : cfg) (a b : rr), In (rr_class a) [CIN; CCS; CCH; CHS] -> In (rr_class b) [CIN; CCS; CCH; CHS] ->
  rank c a b = lex N.compare (rclass_code (rr_class a) :: rtype_code (rr_type a) :: octets c a) (rclass_code (rr_class b) :: rtype_code (rr_type b) :: octets c b).
Proof.
  intros c a b Ia Ib. unfold rank. cbn [lex]. rewrite (proj1 (C91_type_order (rr_type a) (rr_type b))).
  replace (rclass_cmp (rr_class a) (rr_class b)) with (rclass_code (rr_class a) ?= rclass_code (rr_class b)); [reflexivity|].
  cbn [In] in Ia, Ib. destruct Ia as [<-|[<-|[<-|[<-|[]]]]], Ib as [<-|[<-|[<-|[<-|[]]]]]; reflexivity.
Qed.
(** but not for all: a host with this library and one that goes by the numbers may both have won. *)
Theorem C125_order_refuted : forall c : cfg, exists a b : rr, rank c a b = Gt /\
  lex N.compare (rclass_code (rr_class a) :: rtype_code (rr_type a) :: octets c a) (rclass_code (rr_class b) :: rtype_code (rr_type b) :: octets c b) = Lt.
Proof. intros c. exists (mkRR ex_www A false (UdpPayloadSize 0) 60 (DA 1)), (mkRR ex_www A false CIN 60 (DA 1)). split; reflexivity. Qed.
(** Two hosts with two addresses each, one of them in common. *)
Definition probe (l : list rr) : packet := mkPacket (mkheader 7 (hflags (header_new_query 0 false)) 0 0 (N.of_nat (length l)) 0) [] [] l [].
Definition host_a : list rr := [addr ex_www 2; addr ex_www 1].
Definition host_b : list rr := [addr ex_www 1; addr ex_www 3].
Example C125_ex : forall c : cfg, exists outa outb, sent c ex_hash (probe host_a) outa /\ sent c ex_hash (probe host_b) outb /\
  sorted_from c host_a [addr ex_www 1; addr ex_www 2] /\ sorted_from c host_b [addr ex_www 1; addr ex_www 3] /\
  verdict c [addr ex_www 1; addr ex_www 2] [addr ex_www 1; addr ex_www 3] = Lt.
Proof.
  intros c. pose proof labels_ok as (_ & _ & _ & _ & _ & L6).
  assert (S1 : exists out, sent c ex_hash (probe host_a) out).
  { destruct c as [[|] [|] [|]]; eexists; (apply sent_compressed; [|reflexivity|apply separates_b_true; vm_compute; reflexivity|vm_compute; reflexivity|vm_compute; discriminate]).
    all: (split; [repeat split|]; split; [constructor|]).
    all: repeat (apply Forall_cons; [apply addr_ok; [assumption|reflexivity]|]); apply Forall_nil. }
  assert (S2 : exists out, sent c ex_hash (probe host_b) out).
  { destruct c as [[|] [|] [|]]; eexists; (apply sent_plain; [|repeat split; discriminate|vm_compute; reflexivity]).
    all: (split; [repeat split|]; split; [constructor|]).
    all: repeat (apply Forall_cons; [split; [apply addr_ok; [assumption|reflexivity]|split; [exact I|intros bs E; injection E as <-; vm_compute; discriminate]]|]); apply Forall_nil. }
  destruct S1 as (outa & S1), S2 as (outb & S2). exists outa, outb. split; [exact S1|]. split; [exact S2|]. split; [|split; [|reflexivity]].
  - split; [apply perm_swap|]. repeat constructor; discriminate.
  - split; [apply Permutation_refl|]. repeat constructor; discriminate.
Qed.

Print Assumptions C125_agree_partial.
Print Assumptions C125_order_partial.
Print Assumptions C125_order_refuted.
