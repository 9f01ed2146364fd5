(** * C124: aliases in a received message can be followed to their end *)
From Coq Require Import Lia ZifyBool ZifyNat ZifyN Lists.ListDec.
From Verif Require Import Base Buffer Fqdn Header Types RDataBasic RDataSec RData Packet BaseFacts FqdnFacts CodeSpec RDataSpec RDataReads CompressSpec ChunkFacts
  RecordSpec HeaderSpec PacketFacts ObjectSpec ObjectFacts Api PropName PropRecord PropPacket PropTrust.

(** What the records say: f is another name for g. *)
Definition alias_of (rs : list rr) (f g : fqdn) : Prop := exists r, In r rs /\ rr_name r = f /\ rr_data r = DCNAME g.
Inductive leads (rs : list rr) : fqdn -> fqdn -> Prop :=
| leads_end f : (forall g, ~ alias_of rs f g) -> leads rs f f
| leads_step f g h : alias_of rs f g -> leads rs g h -> leads rs f h.
Inductive path (rs : list rr) : nat -> fqdn -> fqdn -> Prop :=
| path_none f : path rs 0 f f
| path_more n f g h : alias_of rs f g -> path rs n g h -> path rs (S n) f h.
Definition goes_round (rs : list rr) (f : fqdn) : Prop := exists m n g, path rs m f g /\ path rs (S n) g g.
(** No name has two aliases (RFC 2181, 10.1). *)
Definition one_alias (rs : list rr) : Prop := forall f g g', alias_of rs f g -> alias_of rs f g' -> g = g'.

(** The resolver: it looks for an alias record whose name equals the name it has, and goes on with its data, one step for every record at most. *)
Fixpoint find_alias (rs : list rr) (f : fqdn) : option fqdn :=
  match rs with
  | [] => None
  | r :: rs' => match rr_data r with DCNAME g => if fqdn_eqb (rr_name r) f then Some g else find_alias rs' f | _ => find_alias rs' f end
  end.
Fixpoint follow (fuel : nat) (rs : list rr) (f : fqdn) : option fqdn :=
  match fuel with
  | O => None
  | S n => match find_alias rs f with None => Some f | Some g => follow n rs g end
  end.
(** The records of a type at a name. *)
Definition records_at (rs : list rr) (f : fqdn) (t : rtype) : list rr := filter (fun r => fqdn_eqb (rr_name r) f && (rtype_code (rr_type r) =? rtype_code t)) rs.
Definition resolve (rs : list rr) (f : fqdn) : option fqdn := follow (S (length rs)) rs f.

Lemma find_some rs f g : find_alias rs f = Some g -> alias_of rs f g.
Proof.
  induction rs as [|r rs IH]; [discriminate|]. cbn [find_alias]. intros H.
  assert (Tl : find_alias rs f = Some g -> alias_of (r :: rs) f g) by (intros X; destruct (IH X) as (r' & I & A & B); exists r'; repeat split; [right; exact I|exact A|exact B]).
  destruct (rr_data r) eqn:D; try exact (Tl H). destruct (fqdn_eqb (rr_name r) f) eqn:E; [|exact (Tl H)].
  injection H as <-. apply fqdn_eqb_iff in E. exists r. split; [left; reflexivity|]. split; assumption.
Qed.
Lemma find_none rs f : find_alias rs f = None -> forall g, ~ alias_of rs f g.
Proof.
  intros H g (r & I & A & B). induction rs as [|r' rs IH]; [destruct I|]. cbn [find_alias] in H. destruct I as [->|I].
  - rewrite B in H. rewrite (proj2 (fqdn_eqb_iff (rr_name r) f) A) in H. discriminate H.
  - apply IH; [|exact I]. destruct (rr_data r'); try exact H. destruct (fqdn_eqb (rr_name r') f); [discriminate H|exact H].
Qed.
Lemma find_is rs f g : one_alias rs -> alias_of rs f g -> find_alias rs f = Some g.
Proof.
  intros U A. destruct (find_alias rs f) as [g'|] eqn:E; [|destruct (find_none rs f E g A)]. f_equal. exact (U f g' g (find_some rs f g' E) A).
Qed.
Lemma follow_leads rs n f e : follow n rs f = Some e -> leads rs f e.
Proof.
  revert f. induction n as [|n IH]; intros f H; [discriminate|]. cbn [follow] in H. destruct (find_alias rs f) as [g|] eqn:E.
  - apply (leads_step rs f g e); [exact (find_some rs f g E)|exact (IH g H)].
  - injection H as <-. apply leads_end. exact (find_none rs f E).
Qed.
(** The names passed when the steps are used up. *)
Lemma follow_none rs n f : follow n rs f = None -> exists l, length l = n /\ incl l (map rr_name rs) /\
  (forall l1 a l2, l = l1 ++ a :: l2 -> path rs (length l1) f a) /\ (forall l1 a l2 b l3, l = l1 ++ a :: l2 ++ b :: l3 -> path rs (S (length l2)) a b).
Proof.
  revert f. induction n as [|n IH]; intros f H.
  - exists []. split; [reflexivity|]. split; [intros x []|]. split; [intros [|] a l2 E; discriminate E|intros [|] a l2 b l3 E; discriminate E].
  - cbn [follow] in H. destruct (find_alias rs f) as [g|] eqn:E; [|discriminate H]. pose proof (find_some rs f g E) as A. destruct (IH g H) as (l & Ln & Ic & P1 & P2).
    exists (f :: l). split; [cbn [length]; congruence|]. split; [|split].
    + intros x [<-|I]; [|apply Ic, I]. destruct A as (r & I & N0 & _). rewrite <- N0. apply in_map, I.
    + intros [|b l1] a l2 Q; cbn [app] in Q; injection Q as <- Q; [constructor|]. cbn [length]. econstructor; [exact A|]. exact (P1 l1 a l2 Q).
    + intros [|b' l1] a l2 b l3 Q; cbn [app] in Q; injection Q as <- Q; [|exact (P2 l1 a l2 b l3 Q)].
      econstructor; [exact A|]. exact (P1 l2 b l3 Q).
Qed.
Definition fqdn_dec : forall a b : fqdn, {a = b} + {a <> b} := list_eq_dec (list_eq_dec N.eq_dec).
Lemma repeated (l : list fqdn) : ~ NoDup l -> exists l1 a l2 l3, l = l1 ++ a :: l2 ++ a :: l3.
Proof.
  induction l as [|a l IH]; intros H; [destruct H; constructor|]. destruct (in_dec fqdn_dec a l) as [I|I].
  - apply in_split in I. destruct I as (l2 & l3 & ->). exists [], a, l2, l3. reflexivity.
  - destruct IH as (l1 & b & l2 & l3 & ->); [intros D; apply H; constructor; assumption|]. exists (a :: l1), b, l2, l3. reflexivity.
Qed.
Lemma path_leads rs n f g e : one_alias rs -> path rs n f g -> leads rs f e -> leads rs g e.
Proof.
  intros U P. induction P as [f|n f g h A P IH]; intros L; [exact L|]. apply IH. inversion L as [f' N0|f' g' h' A' L']; subst; [destruct (N0 g A)|]. rewrite (U f g g' A A'). exact L'.
Qed.
Lemma path_snoc rs n a b d : path rs n a b -> alias_of rs b d -> path rs (S n) a d.
Proof. intros P A. induction P as [f|n f g h A1 P IH]; [econstructor; [exact A|constructor]|econstructor; [exact A1|exact (IH A)]]. Qed.
Lemma cycle_never rs n f e : one_alias rs -> path rs (S n) f f -> ~ leads rs f e.
Proof.
  intros U P L. revert n P. induction L as [f N0|f g h A L IH]; intros n P; inversion P as [|m f' g' h' A' P']; subst; [exact (N0 _ A')|].
  rewrite (U f g' g A' A) in P'. exact (IH n (path_snoc rs n g f g P' A)).
Qed.

(** In whatever order the records are and whatever others are with them, what the resolver finds in the message it has received is the end
    of the aliases, or that they go round in a circle. *)
Theorem C124_followed_partial : forall (c : cfg) (h : hasher) (p : packet) (out : bytes) (f : fqdn), sent c h p out -> one_alias (records_of p) ->
  exists p', packet_try_from c out = Ok p' /\
    (forall e, resolve (records_of p') f = Some e <-> leads (records_of p) f e) /\
    (resolve (records_of p') f = None <-> goes_round (records_of p) f).
Proof.
  intros c h p out f S U. destruct (sent_arrives c h p out S) as (p' & R & Q). exists p'. split; [exact R|]. rewrite Q. generalize dependent (records_of p). clear. intros rs U _.
  assert (Nn : resolve rs f = None -> goes_round rs f).
  { intros H. apply follow_none in H. destruct H as (l & Ln & Ic & P1 & P2).
    destruct (NoDup_dec fqdn_dec l) as [D|D].
    - assert (L : (length l <= length (map rr_name rs))%nat) by exact (NoDup_incl_length D Ic). rewrite Ln, map_length in L. destruct (Nat.nle_succ_diag_l _ L).
    - destruct (repeated l D) as (l1 & a & l2 & l3 & E).
      exists (length l1), (length l2), a. split; [exact (P1 l1 a _ E)|exact (P2 l1 a l2 a l3 E)]. }
  assert (Gl : goes_round rs f -> forall e, ~ leads rs f e).
  { intros (m & n & g & P & C) e L. exact (cycle_never rs n g e U C (path_leads rs m f g e U P L)). }
  split.
  - intros e. split; [apply follow_leads|]. intros L. destruct (resolve rs f) as [e'|] eqn:E; [|destruct (Gl (Nn eq_refl) e L)].
    apply follow_leads in E. f_equal. clear - U E L. revert e' E. induction L as [f N0|f g h A L IH]; intros e' E; inversion E as [f' N1|f' g' h' A' L']; subst.
    + reflexivity.
    + destruct (N0 _ A').
    + destruct (N1 _ A).
    + apply IH. rewrite (U f g g' A A'). exact L'.
  - split; [exact Nn|]. intros G. destruct (resolve rs f) as [e|] eqn:E; [|reflexivity]. apply follow_leads in E. destruct (Gl G e E).
Qed.

(** The records of a type at the end of the aliases arrive with them. *)
Corollary C124_records_partial : forall (c : cfg) (h : hasher) (p : packet) (out : bytes) (f e : fqdn) (t : rtype), sent c h p out -> one_alias (records_of p) -> leads (records_of p) f e ->
  exists p' found, packet_try_from c out = Ok p' /\ found = match resolve (records_of p') f with Some e' => records_at (records_of p') e' t | None => [] end /\
    found = records_at (records_of p) e t /\ forall r, In r found <-> In r (records_of p) /\ rr_name r = e /\ rr_type r = t.
Proof.
  intros c h p out f e t S U L. destruct (C124_followed_partial c h p out f S U) as (p' & R & H & _). exists p', (records_at (records_of p) e t). split; [exact R|].
  apply H in L. rewrite L. destruct (sent_arrives c h p out S) as (p2 & R2 & Q2). rewrite R in R2. apply Ok_inj in R2. subst p2. rewrite Q2. split; [reflexivity|]. split; [reflexivity|].
  intros r. unfold records_at. rewrite filter_In, andb_true_iff, fqdn_eqb_iff, N.eqb_eq. split; intros (A & B & D); (split; [exact A|]; split; [exact B|]); [apply BitmapFacts.rtype_code_inj, D|congruence].
Qed.

(** False when a server spells the name at the end of an alias in another case than in the alias: the resolver stops there and finds no record, whatever
    records there are at that name. *)
Theorem C124_case_refuted : forall (c : cfg) (h : hasher) (p : packet) (out : bytes) (f g g' : fqdn) (t : rtype), sent c h p out -> one_alias (records_of p) ->
  alias_of (records_of p) f g -> same_name g g' -> In g' (map rr_name (records_of p)) -> ~ In g (map rr_name (records_of p)) ->
  exists p', packet_try_from c out = Ok p' /\ resolve (records_of p') f = Some g /\
    records_at (records_of p') g t = [].
Proof.
  intros c h p out f g g' t S U A _ _ Ng. destruct (C124_followed_partial c h p out f S U) as (p' & R & H & _). exists p'. split; [exact R|]. split.
  - apply H. apply (leads_step _ f g g A). apply leads_end. intros k (r & I & N0 & _). apply Ng. rewrite <- N0. apply in_map, I.
  - destruct (sent_arrives c h p out S) as (p2 & R2 & Q2). rewrite R in R2. apply Ok_inj in R2. subst p2. rewrite Q2. unfold records_at.
    clear - Ng. induction (records_of p) as [|r rs IH]; [reflexivity|]. cbn [filter map In] in *.
    destruct (fqdn_eqb (rr_name r) g) eqn:E; [apply fqdn_eqb_iff in E; tauto|]. cbn [andb]. apply IH. tauto.
Qed.
(** www.example.com is another name for a.b, and that for c, where there are two addresses; all out of order.  Beside them two aliases in a circle. *)
Definition cname (f g : fqdn) : rr := mkRR f CNAME false CIN 60 (DCNAME g).
Definition addr (f : fqdn) (n : N) : rr := mkRR f A false CIN 60 (DA n).
Definition ex_aliases : packet := mkPacket (mkheader 7 (hflags (header_new_reply 0 StandardQuery)) 0 6 0 0) []
  [addr [[99]] 1; cname [[97]; [98]] [[99]]; cname [[120]] [[121]]; cname ex_www [[97]; [98]]; addr [[99]] 2; cname [[121]] [[120]]] [] [].
Definition ex_spelt : packet := mkPacket (mkheader 7 (hflags (header_new_reply 0 StandardQuery)) 0 2 0 0) [] [cname ex_www [[97]; [98]]; addr [[65]; [98]] 1] [] [].
Lemma labels_ok : fqdn_ok [[99]] /\ fqdn_ok [[97]; [98]] /\ fqdn_ok [[120]] /\ fqdn_ok [[121]] /\ fqdn_ok [[65]; [98]] /\ fqdn_ok ex_www.
Proof. unfold fqdn_ok, label_ok. repeat split; repeat constructor; cbn; lia. Qed.
Lemma cname_ok c f g : fqdn_ok f -> fqdn_ok g -> rr_ok c (cname f g).
Proof. intros F G. split; [repeat split; try exact F; try reflexivity; try discriminate; apply basic_exists; reflexivity|]. split; [split; [apply basic_exists; reflexivity|exact I]|exact G]. Qed.
Lemma addr_ok c f n : fqdn_ok f -> n < 4294967296 -> rr_ok c (addr f n).
Proof. intros F B. split; [repeat split; try exact F; try reflexivity; try discriminate; apply basic_exists; reflexivity|]. split; [split; [apply basic_exists; reflexivity|exact B]|exact I]. Qed.
Example C124_ex : forall c : cfg, exists out out', sent c ex_hash ex_aliases out /\ sent c ex_hash ex_spelt out' /\ one_alias (records_of ex_aliases) /\ one_alias (records_of ex_spelt) /\
  leads (records_of ex_aliases) ex_www [[99]] /\ goes_round (records_of ex_aliases) [[120]] /\
  alias_of (records_of ex_spelt) ex_www [[97]; [98]] /\ same_name [[97]; [98]] [[65]; [98]] /\ In [[65]; [98]] (map rr_name (records_of ex_spelt)) /\ ~ In [[97]; [98]] (map rr_name (records_of ex_spelt)).
Proof.
  intros c. pose proof labels_ok as (L1 & L2 & L3 & L4 & L5 & L6).
  assert (S1 : exists out, sent c ex_hash ex_aliases out).
  { destruct c as [[|] [|] [|]]; eexists; (apply sent_compressed; [|reflexivity|apply separates_b_true; vm_compute; reflexivity|vm_compute; reflexivity|vm_compute; discriminate]).
    all: (split; [repeat split|]; split; [constructor|]).
    all: repeat (apply Forall_cons; [first [apply cname_ok; assumption|apply addr_ok; [assumption|reflexivity]]|]); apply Forall_nil. }
  assert (S2 : exists out, sent c ex_hash ex_spelt out).
  { destruct c as [[|] [|] [|]]; eexists; (apply sent_compressed; [|reflexivity|apply separates_b_true; vm_compute; reflexivity|vm_compute; reflexivity|vm_compute; discriminate]).
    all: (split; [repeat split|]; split; [constructor|]).
    all: repeat (apply Forall_cons; [first [apply cname_ok; assumption|apply addr_ok; [assumption|reflexivity]]|]); apply Forall_nil. }
  destruct S1 as (out & S1), S2 as (out' & S2). exists out, out'. split; [exact S1|]. split; [exact S2|].
  assert (Al : forall f g n, (n < 6)%nat -> nth_error (records_of ex_aliases) n = Some (cname f g) -> alias_of (records_of ex_aliases) f g).
  { intros f g n _ E. exists (cname f g). split; [exact (nth_error_In _ _ E)|split; reflexivity]. }
  split; [|split; [|split; [|split; [|split; [|split; [reflexivity|split]]]]]].
  - intros f g g' (r & I & N0 & D) (r' & I' & N0' & D'). cbn [records_of ex_aliases p_answers p_authorities p_additionals app In] in I, I'.
    repeat (destruct I as [I|I]; [subst r; try discriminate D; injection D as <-; subst f; repeat (destruct I' as [I'|I']; [subst r'; try discriminate D'; try discriminate N0'; injection D' as <-; reflexivity|]); destruct I'|]). destruct I.
  - intros f g g' (r & I & N0 & D) (r' & I' & N0' & D'). cbn [records_of ex_spelt p_answers p_authorities p_additionals app In] in I, I'.
    repeat (destruct I as [I|I]; [subst r; try discriminate D; injection D as <-; subst f; repeat (destruct I' as [I'|I']; [subst r'; try discriminate D'; try discriminate N0'; injection D' as <-; reflexivity|]); destruct I'|]). destruct I.
  - apply (leads_step _ _ [[97]; [98]]); [apply (Al _ _ 3%nat); [lia|reflexivity]|]. apply (leads_step _ _ [[99]]); [apply (Al _ _ 1%nat); [lia|reflexivity]|]. apply leads_end.
    intros g (r & I & N0 & D). cbn [records_of ex_aliases p_answers p_authorities p_additionals app In] in I.
    repeat (destruct I as [I|I]; [subst r; try discriminate D; discriminate N0|]). destruct I.
  - exists 0%nat, 1%nat, [[120]]. split; [constructor|]. econstructor; [apply (Al [[120]] [[121]] 2%nat); [lia|reflexivity]|]. econstructor; [apply (Al [[121]] [[120]] 5%nat); [lia|reflexivity]|constructor].
  - exists (cname ex_www [[97]; [98]]). split; [left; reflexivity|split; reflexivity].
  - right. left. reflexivity.
  - intros [H|[H|[]]]; discriminate H.
Qed.

Print Assumptions C124_followed_partial.
Print Assumptions C124_records_partial.
Print Assumptions C124_case_refuted.
