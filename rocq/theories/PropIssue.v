(** * C136: who may issue certificates *)
From Coq Require Import Lia ZifyBool ZifyNat ZifyN.
From Verif Require Import Base Buffer Fqdn Header Types RDataBasic RDataSec Svcb Bitmap RData Packet BaseFacts FqdnFacts CodeSpec RDataSpec RDataReads CompressSpec ChunkFacts
  RecordSpec HeaderSpec PacketFacts ObjectSpec ObjectFacts Api PropName PropRecord PropPacket PropTrust PropKnown PropMac.

(** ** What users write (RFC 8659, 3 and 4)

    A certification authority that has received CAA records goes from the name in the request towards the root, to the first name that has some.  Unless one of
    them is critical and not understood, it may issue if none of them is for issuing or one names it: what stands before the first semicolon, without blanks. *)
Definition caa_at (f : fqdn) (r : rr) : bool := match rr_data r with DCAA _ => fqdn_eqb (rr_name r) f | _ => false end.
Fixpoint relevant (rs : list rr) (f : fqdn) : list rr :=
  match f with
  | [] => []
  | _ :: f' => match filter (caa_at f) rs with [] => relevant rs f' | l => l end
  end.
Definition caas (rs : list rr) : list caa := flat_map (fun r => match rr_data r with DCAA x => [x] | _ => [] end) rs.
Definition issue : bytes := [105;115;115;117;101].
Definition issuewild : bytes := issue ++ [119;105;108;100].
Definition iodef : bytes := [105;111;100;101;102].
Definition has_tag (t : bytes) (x : caa) : bool := Api.bytes_eqb (map fold_case (caa_tag x)) t.
Definition blank (b : N) : bool := (b =? 32) || (b =? 9).
Fixpoint up_to_semicolon (v : bytes) : bytes := match v with [] => [] | b :: v' => if b =? 59 then [] else b :: up_to_semicolon v' end.
Fixpoint trim_start (v : bytes) : bytes := match v with [] => [] | b :: v' => if blank b then trim_start v' else v end.
Definition issuer (v : bytes) : bytes := rev (trim_start (rev (trim_start (up_to_semicolon v)))).
Definition allowed (got : list packet) (f : fqdn) (ca : bytes) : bool :=
  let l := caas (relevant (flat_map p_answers got) f) in
  forallb (fun x => negb (caa_critical x) || (has_tag issue x || has_tag issuewild x || has_tag iodef x)) l &&
  (negb (existsb (has_tag issue) l) || existsb (fun x => has_tag issue x && Api.bytes_eqb (issuer (caa_value x)) ca) l).

(** ** What is meant *)
Definition caa_for (says : list rr) (g : fqdn) (x : caa) : Prop := exists r, In r says /\ rr_name r = g /\ rr_data r = DCAA x.
Definition above (f g : fqdn) : Prop := exists labels, f = labels ++ g.
(** The name itself, or the closest one above it other than the root, that has CAA records. *)
Definition closest (says : list rr) (f g : fqdn) : Prop :=
  above f g /\ g <> [] /\ (exists x, caa_for says g x) /\ forall g', above f g' -> (length g < length g')%nat -> forall x, ~ caa_for says g' x.
Definition tagged (x : caa) (t : bytes) : Prop := map fold_case (caa_tag x) = t.
(** Blanks, the name of the authority, blanks, and nothing else or a semicolon. *)
Definition issued_to (v ca : bytes) : Prop :=
  exists a b rest, v = a ++ ca ++ b ++ rest /\ Forall (fun x => x = 32 \/ x = 9) (a ++ b) /\ (rest = [] \/ exists parameters, rest = 59 :: parameters).
Definition may_issue (says : list rr) (f : fqdn) (ca : bytes) : Prop := forall g, closest says f g ->
  (forall x, caa_for says g x -> caa_critical x = true -> tagged x issue \/ tagged x issuewild \/ tagged x iodef) /\
  ((exists x, caa_for says g x /\ tagged x issue) -> exists x, caa_for says g x /\ tagged x issue /\ issued_to (caa_value x) ca).
Definition ca_name (ca : bytes) : Prop := ca <> [] /\ Forall (fun b => b <> 59 /\ b <> 32 /\ b <> 9) ca.

Lemma semicolon_split v : exists rest, v = up_to_semicolon v ++ rest /\ (rest = [] \/ exists parameters, rest = 59 :: parameters).
Proof.
  induction v as [|b v (rest & E & R)]; [exists []; auto|]. cbn [up_to_semicolon]. destruct (N.eqb_spec b 59) as [->|_]; [exists (59 :: v); eauto|]. exists rest. split; [cbn [app]; f_equal; exact E|exact R].
Qed.
Lemma blank_iff b : blank b = true <-> b = 32 \/ b = 9. Proof. unfold blank. lia. Qed.
Lemma trim_split v : exists a, v = a ++ trim_start v /\ Forall (fun x => x = 32 \/ x = 9) a.
Proof.
  induction v as [|b v (a & E & F)]; [exists []; auto|]. cbn [trim_start]. destruct (blank b) eqn:B; [|exists []; auto]. apply blank_iff in B. exists (b :: a). split; [cbn [app]; f_equal; exact E|constructor; assumption].
Qed.
Lemma trim_blanks a v : Forall (fun x => x = 32 \/ x = 9) a -> trim_start (a ++ v) = trim_start v.
Proof. intros F. induction F as [|b a B F IH]; [reflexivity|]. cbn [app trim_start]. apply blank_iff in B. rewrite B. exact IH. Qed.
Lemma trim_name ca v : ca_name ca -> trim_start (ca ++ v) = ca ++ v.
Proof. intros (N & F). destruct ca as [|b ca]; [congruence|]. apply Forall_inv in F. cbn [app trim_start]. replace (blank b) with false by (unfold blank; lia). reflexivity. Qed.
Lemma name_rev ca : ca_name ca -> ca_name (rev ca).
Proof. intros (N & F). split; [|apply Forall_rev, F]. intros E. apply N. rewrite <- (rev_involutive ca), E. reflexivity. Qed.
Lemma semicolon_end s rest : Forall (fun b => b <> 59) s -> rest = [] \/ (exists parameters, rest = 59 :: parameters) -> up_to_semicolon (s ++ rest) = s.
Proof.
  intros F R. induction F as [|b s N F IH]; [destruct R as [->|(q & ->)]; reflexivity|]. cbn [app up_to_semicolon]. replace (b =? 59) with false by lia. f_equal. exact IH.
Qed.
Lemma issuer_iff v ca : ca_name ca -> (issuer v = ca <-> issued_to v ca).
Proof.
  intros C. unfold issuer. split.
  - intros E. destruct (semicolon_split v) as (rest & Ev & R). set (u := up_to_semicolon v) in *. destruct (trim_split u) as (a & Ea & Fa). set (w := trim_start u) in *. destruct (trim_split (rev w)) as (b & Eb & Fb).
    exists a, (rev b), rest. split; [|split; [apply Forall_app; split; [exact Fa|apply Forall_rev, Fb]|exact R]]. rewrite Ev, Ea, <- E. rewrite <- app_assoc. f_equal. rewrite app_assoc. f_equal.
    rewrite <- rev_app_distr, <- Eb. symmetry. apply rev_involutive.
  - intros (a & b & rest & -> & F & R). apply Forall_app in F. destruct F as (Fa & Fb). rewrite !app_assoc, <- (app_assoc a ca b).
    rewrite semicolon_end; [|apply Forall_app; split; [eapply Forall_impl; [|exact Fa]; cbn; lia|apply Forall_app; split; [eapply Forall_impl; [|exact (proj2 C)]; cbn; lia|eapply Forall_impl; [|exact Fb]; cbn; lia]]|exact R].
    rewrite trim_blanks by exact Fa. rewrite trim_name by exact C. rewrite rev_app_distr, trim_blanks by (apply Forall_rev, Fb). rewrite <- (app_nil_r (rev ca)), trim_name by (apply name_rev, C).
    rewrite app_nil_r. apply rev_involutive.
Qed.
Lemma caa_at_iff says g x : In x (caas (filter (caa_at g) says)) <-> caa_for says g x.
Proof.
  unfold caas, caa_for. rewrite in_flat_map. split.
  - intros (r & I & J). apply filter_In in I. destruct I as (I & K). unfold caa_at in K. destruct (rr_data r) eqn:D; try discriminate K. apply fqdn_eqb_iff in K. destruct J as [<-|[]]. exists r. auto.
  - intros (r & I & N & D). exists r. split; [apply filter_In; split; [exact I|]; unfold caa_at; rewrite D; apply fqdn_eqb_iff, N|]. rewrite D. left. reflexivity.
Qed.
Lemma none_at says g : filter (caa_at g) says = [] <-> forall x, ~ caa_for says g x.
Proof.
  split; [intros E x I; apply caa_at_iff in I; rewrite E in I; exact I|]. intros N. destruct (filter (caa_at g) says) as [|r l] eqn:E; [reflexivity|].
  assert (I : In r (filter (caa_at g) says)) by (rewrite E; left; reflexivity). apply filter_In in I. destruct I as (I & K). unfold caa_at in K. destruct (rr_data r) eqn:D; try discriminate K. apply fqdn_eqb_iff in K.
  destruct (N x). exists r. auto.
Qed.
Lemma above_cons l f g : above (l :: f) g <-> g = l :: f \/ above f g.
Proof.
  split.
  - intros ([|k labels] & E); [left; symmetry; exact E|]. injection E as _ E. right. exists labels. exact E.
  - intros [->|(labels & ->)]; [exists []; reflexivity|exists (l :: labels); reflexivity].
Qed.
Lemma above_short f g : above f g -> (length g <= length f)%nat. Proof. intros (l & ->). rewrite app_length. lia. Qed.
Lemma relevant_cases says f : (relevant says f = [] /\ forall g, ~ closest says f g) \/ (exists g, closest says f g /\ forall x, In x (caas (relevant says f)) <-> caa_for says g x).
Proof.
  induction f as [|l f IH]; [left; split; [reflexivity|]; intros g (A & N & _); apply above_short in A; destruct g; [congruence|cbn in A; lia]|].
  cbn [relevant]. destruct (filter (caa_at (l :: f)) says) as [|r rs] eqn:E.
  - assert (N : forall x, ~ caa_for says (l :: f) x) by (apply none_at, E).
    assert (Q : forall g, closest says (l :: f) g <-> closest says f g).
    { intros g. unfold closest. split; intros (A & Ng & (x & X) & K).
      - apply above_cons in A. destruct A as [->|A]; [destruct (N x X)|]. repeat split; [exact A|exact Ng|exists x; exact X|]. intros g' A'. apply K, above_cons. right. exact A'.
      - repeat split; [apply above_cons; right; exact A|exact Ng|exists x; exact X|]. intros g' A' L y Y. apply above_cons in A'. destruct A' as [->|A']; [exact (N y Y)|exact (K g' A' L y Y)]. }
    destruct IH as [(I1 & I2)|(g & I1 & I2)]; [left; split; [exact I1|intros g; rewrite Q; apply I2]|right; exists g; split; [apply Q, I1|exact I2]].
  - right. exists (l :: f). split; [|intros x; rewrite <- E; apply caa_at_iff]. split; [exists []; reflexivity|]. split; [discriminate|]. split.
    + assert (I : In r (filter (caa_at (l :: f)) says)) by (rewrite E; left; reflexivity). apply filter_In in I. destruct I as (I & K). unfold caa_at in K. destruct (rr_data r) eqn:D; try discriminate K.
      apply fqdn_eqb_iff in K. exists x, r. auto.
    + intros g' A L. apply above_short in A. lia.
Qed.
Lemma closest_one says f g g' : closest says f g -> closest says f g' -> g = g'.
Proof.
  intros (A & _ & (x & X) & K) (A' & _ & (x' & X') & K'). assert (L : length g = length g').
  { destruct (Nat.lt_trichotomy (length g) (length g')) as [L|[L|L]]; [destruct (K g' A' L x' X')|exact L|destruct (K' g A L x X)]. }
  destruct A as (a & ->), A' as (b & E). assert (La : length a = length b) by (apply (f_equal (@length bytes)) in E; rewrite !app_length in E; lia).
  apply app_inv_length in E; [apply E|exact La].
Qed.
Lemma has_tag_iff t x : has_tag t x = true <-> tagged x t. Proof. apply bytes_eqb_iff. Qed.

(** ** Theorems *)
(** Whatever messages have come: the answer is the one that the records as sent give. *)
Theorem C136_allowed_partial : forall (c : cfg) (ms : list (packet * bytes)) (f : fqdn) (ca : bytes), Forall (fun m => exists h, sent c h (fst m) (snd m)) ms -> ca_name ca ->
  exists got, delivered c ms got /\ (allowed got f ca = true <-> may_issue (flat_map p_answers (map fst ms)) f ca).
Proof.
  intros c ms f ca F C. destruct (all_arrive c ms F) as (got & D & E & _). exists got. split; [exact D|]. unfold allowed. rewrite E. set (says := flat_map p_answers (map fst ms)). clearbody says. clear E D F got.
  destruct (relevant_cases says f) as [(R & N)|(g & G & I)].
  - rewrite R. split; [intros _ g G; destruct (N g G)|reflexivity].
  - set (l := caas (relevant says f)) in *. rewrite andb_true_iff, orb_true_iff, negb_true_iff, forallb_forall. unfold may_issue. split.
    + intros (H1 & H2) g' G'. rewrite <- (closest_one _ _ _ _ G G'). split.
      * intros x X Cr. apply I in X. specialize (H1 x X). rewrite Cr in H1. cbn [negb orb] in H1. rewrite !orb_true_iff, !has_tag_iff in H1. tauto.
      * intros (x & X & T). destruct H2 as [H2|H2].
        { exfalso. apply I in X. enough (existsb (has_tag issue) l = true) by congruence. apply existsb_exists. exists x. split; [exact X|apply has_tag_iff, T]. }
        apply existsb_exists in H2. destruct H2 as (y & Y & H2). apply andb_true_iff in H2. destruct H2 as (T2 & V). exists y. split; [apply I, Y|]. split; [apply has_tag_iff, T2|]. apply bytes_eqb_iff in V. apply issuer_iff; assumption.
    + intros H. destruct (H g G) as (H1 & H2). split.
      * intros x X. apply I in X. destruct (caa_critical x) eqn:Cr; [|reflexivity]. cbn [negb orb]. rewrite !orb_true_iff, !has_tag_iff. specialize (H1 x X Cr). tauto.
      * destruct (existsb (has_tag issue) l) eqn:Q; [right|left; reflexivity]. apply existsb_exists in Q. destruct Q as (x & X & T). destruct H2 as (y & Y & Ty & V); [exists x; split; [apply I, X|apply has_tag_iff, T]|].
        apply existsb_exists. exists y. split; [apply I, Y|]. apply andb_true_iff. split; [apply has_tag_iff, Ty|]. apply bytes_eqb_iff. apply issuer_iff; assumption.
Qed.
(** In plain form the value is cut short by the length of the tag: another authority may issue than the one that is named. *)
Definition caa_record (f : fqdn) (v : bytes) : rr := mkRR f CAA false CIN 60 (DCAA (mkCaa false issue v)).
Definition ca_net : bytes := [99;97;46;110;101;116].
Lemma caa_ok c f v : fqdn_ok f -> rr_ok c (caa_record f v).
Proof. intros F. destruct c as [[|] [|] [|]]; repeat split; try assumption; try discriminate; try reflexivity; try (cbn; lia). all: try (unfold short, caa_record, issue; cbn; lia). Qed.
Lemma caa_packet_ok c l : Forall (rr_ok c) l -> (length l < 1000)%nat -> packet_ok c (ex_knows l).
Proof. intros F L. split; [unfold header_typed; cbn -[N.of_nat]; lia|]. split; [constructor|]. unfold records_of. cbn. rewrite app_nil_r. exact F. Qed.
Lemma one_record f v x g : caa_for [caa_record f v] g x -> f = g /\ x = mkCaa false issue v.
Proof. intros (r & [<-|[]] & N & D). cbn in N, D. injection D as <-. auto. Qed.
Lemma one_closest f v : f <> [] -> closest [caa_record f v] f f.
Proof. intros N. split; [exists []; reflexivity|]. split; [exact N|]. split; [eexists; eexists; split; [left; reflexivity|split; reflexivity]|]. intros g A L. apply above_short in A. lia. Qed.
Lemma ca_net_name : ca_name ca_net. Proof. split; [discriminate|]. unfold ca_net. repeat (apply Forall_cons; [lia|]). apply Forall_nil. Qed.
Theorem C136_plain_refuted : forall c : cfg, exists (p p' : packet) (out : bytes), packet_ok c p /\ counts_of p = true_counts p /\ packet_to_bytes c p = Ok out /\ packet_try_from c out = Ok p' /\
  allowed [p'] ex_www ca_net = true /\ ~ may_issue (p_answers p) ex_www ca_net.
Proof.
  intros c. exists (ex_knows [caa_record ex_www (ca_net ++ [97;98;99;100;101])]). assert (O : packet_ok c (ex_knows [caa_record ex_www (ca_net ++ [97;98;99;100;101])])).
  { apply caa_packet_ok; [|cbn; lia]. constructor; [apply caa_ok; exact ex_name_ok|constructor]. }
  assert (M : ~ may_issue [caa_record ex_www (ca_net ++ [97;98;99;100;101])] ex_www ca_net).
  { intros H. destruct (H ex_www) as (_ & (x & X & _ & V)); [apply one_closest; discriminate|eexists; split; [eexists; split; [left; reflexivity|split; reflexivity]|reflexivity]|].
    apply one_record in X. destruct X as (_ & ->). apply issuer_iff in V; [|exact ca_net_name]. vm_compute in V. discriminate V. }
  destruct c as [[|] [|] [|]]; do 2 eexists; (split; [exact O|split; [reflexivity|split; [vm_compute; reflexivity|split; [vm_compute; reflexivity|split; [vm_compute; reflexivity|exact M]]]]]).
Qed.
(** A record under another spelling of the name is not seen. *)
Theorem C136_case_refuted : forall c : cfg, exists (h : hasher) (p p' : packet) (out : bytes) (f g : fqdn) (v : bytes), sent c h p out /\ p_answers p = [caa_record g v] /\ same_name f g /\
  packet_try_from c out = Ok p' /\ allowed [p'] f ca_net = true /\ ~ may_issue [caa_record f v] f ca_net.
Proof.
  intros c. exists ex_hash. set (g := [[87; 87; 87]; [101;120;97;109;112;108;101]; [99;111;109]]). set (p := ex_knows [caa_record g [59]]).
  assert (O : packet_ok c p) by (apply caa_packet_ok; [|cbn; lia]; constructor; [apply caa_ok; unfold fqdn_ok, label_ok, g; repeat constructor; cbn; lia|constructor]).
  assert (M : ~ may_issue [caa_record ex_www [59]] ex_www ca_net).
  { intros H. destruct (H ex_www) as (_ & (x & X & _ & V)); [apply one_closest; discriminate|eexists; split; [eexists; split; [left; reflexivity|split; reflexivity]|reflexivity]|].
    apply one_record in X. destruct X as (_ & ->). apply issuer_iff in V; [|exact ca_net_name]. vm_compute in V. discriminate V. }
  exists p. assert (S : hash_separates ex_hash (packet_names p)) by (apply separates_b_true; vm_compute; reflexivity).
  destruct c as [[|] [|] [|]]; do 2 eexists; exists ex_www, g, [59]; (split; [apply sent_compressed; [exact O|reflexivity|exact S|vm_compute; reflexivity|vm_compute; discriminate]|]);
    (split; [reflexivity|split; [reflexivity|split; [vm_compute; reflexivity|split; [vm_compute; reflexivity|exact M]]]]).
Qed.

(** The records of example.com are for www.example.com: one authority, with a parameter, may issue, and the other may not. *)
Example C136_ex : exists out, let p := ex_knows [caa_record (tl ex_www) ([32] ++ ca_net ++ [32; 59; 97]); caa_record [[99;111;109]] [59]] in
  sent ex_cfg ex_hash p out /\ may_issue (p_answers p) ex_www ca_net /\ ~ may_issue (p_answers p) ex_www [97] /\ allowed [p] ex_www ca_net = true /\ allowed [p] ex_www [97] = false.
Proof.
  assert (O : packet_ok ex_cfg (ex_knows [caa_record (tl ex_www) ([32] ++ ca_net ++ [32; 59; 97]); caa_record [[99;111;109]] [59]])).
  { apply caa_packet_ok; [|cbn; lia]. repeat (apply Forall_cons; [apply caa_ok; unfold fqdn_ok, label_ok; repeat constructor; cbn; lia|]). apply Forall_nil. }
  eexists. cbv zeta. split; [apply sent_compressed; [exact O|reflexivity|apply separates_b_true; vm_compute; reflexivity|vm_compute; reflexivity|vm_compute; discriminate]|].
  match goal with |- may_issue (p_answers ?q) _ _ /\ _ => set (p := q) in * end.
  assert (K : forall ca, ca_name ca -> (allowed [p] ex_www ca = true <-> may_issue (p_answers p) ex_www ca)).
  { intros ca C. assert (E : exists out, packet_to_bytes_compressed ex_cfg ex_hash p = Ok out /\ packet_try_from ex_cfg out = Ok p /\ N.of_nat (length out) <= 16384).
    { eexists. split; [vm_compute; reflexivity|]. split; [vm_compute; reflexivity|vm_compute; discriminate]. }
    destruct E as (out & E & R & L). destruct (C136_allowed_partial ex_cfg [(p, out)] ex_www ca) as (got & D & I); [|exact C|].
    - constructor; [|constructor]. exists ex_hash. apply sent_compressed; [exact O|reflexivity|apply separates_b_true; vm_compute; reflexivity|exact E|exact L].
    - inversion D as [|m q ms got' X Y]; subst. inversion Y; subst. cbn [snd] in X. rewrite R in X. apply Ok_inj in X. subst q. cbn [map fst flat_map] in I. rewrite app_nil_r in I. exact I. }
  assert (A : allowed [p] ex_www ca_net = true) by (vm_compute; reflexivity). assert (B : allowed [p] ex_www [97] = false) by (vm_compute; reflexivity).
  split; [apply K; [exact ca_net_name|exact A]|]. split; [|split; assumption]. intros M. apply K in M; [congruence|]. split; [discriminate|]. constructor; [lia|constructor].
Qed.
Print Assumptions C136_allowed_partial.
Print Assumptions C136_plain_refuted.
Print Assumptions C136_case_refuted.
