(** * Facts about names on the wire, sizes of packets, setter histories, orders. *)
From Coq Require Import Lia Sorting.Sorted.
From Verif Require Import Base Buffer Fqdn Header Types RDataBasic Bitmap Svcb RDataSec RData Packet BaseFacts NameSpec FqdnLoop FqdnFacts
  CodeSpec CodeFacts WireSpec Api ObjectSpec.

(** ** A name visits each place of the message at most once *)
Inductive walk (d : bytes) (lim : nat) : nat -> list bytes -> list nat -> Prop :=
| walk_root p : nth_error d p = Some 0 -> walk d lim p [] [p]
| walk_label p l ls ps : label_at d 191 p l -> walk d lim (p + 1 + length l) ls ps -> walk d lim p (l :: ls) (p :: ps)
| walk_ptr p t ls ps : pointer_at d p t -> (t < lim)%nat -> walk d lim t ls ps -> walk d lim p ls (p :: ps).

Lemma tail_walk d lim p ls : tail_at d 191 lim p ls -> exists ps, walk d lim p ls ps.
Proof.
  induction 1 as [p H|p l ls L T IH|p t ls P L T IH].
  - exists [p]. now constructor.
  - destruct IH as [ps W]. exists (p :: ps). now constructor.
  - destruct IH as [ps W]. exists (p :: ps). now apply walk_ptr with t.
Qed.

Lemma label_len d p l : label_at d 191 p l -> exists n, nth_error d p = Some n /\ 1 <= n <= 191 /\ length l = N.to_nat n /\ l = slice d (p + 1) (N.to_nat n).
Proof.
  intros (n & E & B & L & ->). exists n. repeat split; try assumption; try apply B. unfold slice. rewrite firstn_length, skipn_length. lia.
Qed.
Lemma walk_det d lim p ls ps : walk d lim p ls ps -> forall ls' ps', walk d lim p ls' ps' -> ps = ps'.
Proof.
  induction 1 as [p H|p l ls ps L T IH|p t ls ps P L T IH]; intros ls' ps' W.
  - inversion W as [? H'|? l' ? ? L'|? t' ? ? P']; subst; [reflexivity| |].
    + destruct (label_len _ _ _ L') as (n & E & B & _). rewrite H in E. injection E as <-. lia.
    + destruct P' as (a & b & E & B & _). rewrite H in E. injection E as <-. lia.
  - destruct (label_len _ _ _ L) as (n & E & B & N1 & L1). inversion W as [? H'|? l' ? ? L' T'|? t' ? ? P']; subst ls' ps'.
    + rewrite H' in E. injection E as <-. lia.
    + destruct (label_len _ _ _ L') as (n' & E' & B' & N1' & L1'). rewrite E in E'. injection E' as <-.
      f_equal. apply IH with ls0. rewrite N1, <- N1'. exact T'.
    + destruct P' as (a & b & E' & B' & _). rewrite E in E'. injection E' as <-. lia.
  - destruct P as (a & b & E & B & E2 & B2 & ->). inversion W as [? H'|? l' ? ? L' T'|? t' ? ? P' L2 T']; subst ls' ps'.
    + rewrite H' in E. injection E as <-. lia.
    + destruct (label_len _ _ _ L') as (n' & E' & B' & _). rewrite E in E'. injection E' as <-. lia.
    + destruct P' as (a' & b' & E' & B' & E2' & B2' & ->). rewrite E in E'. injection E' as <-. rewrite E2 in E2'. injection E2' as <-.
      f_equal. apply IH with ls0. exact T'.
Qed.
Lemma walk_in d lim p ls ps : walk d lim p ls ps -> forall q, In q ps -> exists ls' ps', walk d lim q ls' ps' /\ (length ps' <= length ps)%nat.
Proof.
  induction 1 as [p H|p l ls ps L T IH|p t ls ps P L T IH]; intros q I.
  - destruct I as [<-|[]]. exists [], [p]. split; [now constructor|apply le_n].
  - destruct I as [<-|I]; [exists (l :: ls), (p :: ps); split; [now constructor|apply le_n]|].
    destruct (IH q I) as (a & b & W & Le). exists a, b. split; [exact W|cbn [length]; lia].
  - destruct I as [<-|I]; [exists ls, (p :: ps); split; [now apply walk_ptr with t|apply le_n]|].
    destruct (IH q I) as (a & b & W & Le). exists a, b. split; [exact W|cbn [length]; lia].
Qed.
Lemma walk_nodup d lim p ls ps : walk d lim p ls ps -> NoDup ps.
Proof.
  intros W. induction W as [p H|p l ls ps L T IH|p t ls ps P L T IH].
  - constructor; [intros []|constructor].
  - constructor; [|exact IH]. intros I. destruct (walk_in _ _ _ _ _ T p I) as (a & b & W' & Le).
    assert (E : p :: ps = b) by (eapply walk_det; [|exact W']; constructor; eassumption). subst b. cbn [length] in Le. lia.
  - constructor; [|exact IH]. intros I. destruct (walk_in _ _ _ _ _ T p I) as (a & b & W' & Le).
    assert (E : p :: ps = b) by (eapply walk_det; [|exact W']; eapply walk_ptr; eassumption). subst b. cbn [length] in Le. lia.
Qed.
Lemma walk_inside d lim p ls ps : walk d lim p ls ps -> incl ps (seq 0 (length d)).
Proof.
  assert (I : forall p x, nth_error d p = Some x -> In p (seq 0 (length d))).
  { intros q x E. apply in_seq. assert (q < length d)%nat by (apply nth_error_Some; congruence). lia. }
  induction 1 as [p H|p l ls ps L T IH|p t ls ps P L T IH]; intros q [<-|Q]; try (now apply IH); try contradiction.
  - exact (I _ _ H).
  - destruct L as (n & E & _). exact (I _ _ E).
  - destruct P as (a & b & E & _). exact (I _ _ E).
Qed.
Lemma walk_labels d lim p ls ps : walk d lim p ls ps -> (length ls < length ps)%nat.
Proof. induction 1; cbn [length]; lia. Qed.
Lemma walk_sizes d lim p ls ps : walk d lim p ls ps -> Forall (fun l : bytes => (1 <= length l <= 191)%nat) ls.
Proof.
  induction 1 as [p H|p l ls ps L T IH|p t ls ps P L T IH]; try assumption; constructor; [|assumption].
  destruct (label_len _ _ _ L) as (n & _ & B & -> & _). lia.
Qed.
Lemma octets_bound ls k : Forall (fun l : bytes => (1 <= length l <= 191)%nat) ls -> (length ls <= k)%nat -> (octets_in_name ls <= 192 * k + 1)%nat.
Proof.
  intros F. revert k. induction F as [|l ls B F IH]; intros k L; unfold octets_in_name in *; cbn [fold_right length] in *; [lia|].
  destruct k as [|k]; [lia|]. specialize (IH k). lia.
Qed.
Lemma name_bounded d p ls q : name_at d 191 p ls q ->
  (length ls < length d)%nat /\ Forall (fun l : bytes => (1 <= length l <= 191)%nat) ls /\ (octets_in_name ls <= 192 * (length d - 1) + 1)%nat.
Proof.
  intros N. apply (name_at_tail _ _ _ _ _ (length d) (le_n _)) in N. apply tail_walk in N. destruct N as [ps W].
  assert (L : (length ls < length d)%nat).
  { apply Nat.lt_le_trans with (length ps); [apply (walk_labels _ _ _ _ _ W)|]. rewrite <- (seq_length (length d) 0).
    apply NoDup_incl_length; [apply (walk_nodup _ _ _ _ _ W)|apply (walk_inside _ _ _ _ _ W)]. }
  pose proof (walk_sizes _ _ _ _ _ W) as F. split; [exact L|]. split; [exact F|]. apply octets_bound; [exact F|lia].
Qed.

(** ** Entries of a packet take room *)
Lemma name_room d p ls q : name_at d 191 p ls q -> (p + 1 <= q)%nat.
Proof. induction 1; lia. Qed.
Lemma consecutive_room {X} (entry : nat -> X -> nat -> Prop) k : (forall p x e, entry p x e -> (p + k <= e)%nat) ->
  forall p xs e, consecutive entry p xs e -> (p + k * length xs <= e)%nat.
Proof. intros R p xs e C. induction C as [p|p x m xs e E L C IH]; cbn [length]; [lia|]. specialize (R _ _ _ E). nia. Qed.
Lemma question_room c d p q e : question_at c d p q e -> (p + 5 <= e)%nat.
Proof. intros (k & v & N & _ & _ & _ & _ & _ & ->). apply name_room in N. lia. Qed.
Lemma record_room c d p r e : record_at c d p r e -> (p + 11 <= e)%nat.
Proof. intros (k & v & len & N & _ & _ & _ & _ & _ & _ & _ & _ & -> & _). apply name_room in N. lia. Qed.
Lemma record_end c d p r e : record_at c d p r e -> (e <= length d)%nat.
Proof. intros (k & v & len & _ & _ & _ & _ & _ & _ & _ & _ & _ & _ & L & _). exact L. Qed.
Lemma question_end c d p q e : question_at c d p q e -> (e <= length d)%nat.
Proof.
  intros (k & v & _ & _ & _ & (a & b & _ & _ & E & _) & _ & _ & ->).
  assert (k + 2 + 1 < length d)%nat by (apply nth_error_Some; congruence). lia.
Qed.
Lemma consecutive_end {X} (entry : nat -> X -> nat -> Prop) n : (forall p x e, entry p x e -> (e <= n)%nat) ->
  forall p xs e, consecutive entry p xs e -> (p <= n)%nat -> (e <= n)%nat.
Proof. intros R p xs e C. induction C as [p|p x m xs e E L C IH]; intros Q; [exact Q|]. apply IH. exact (R _ _ _ E). Qed.
Lemma packet_room c d p e : packet_at c d p e ->
  (12 + 5 * length (p_questions p) + 11 * (length (p_answers p) + length (p_authorities p) + length (p_additionals p)) <= length d)%nat.
Proof.
  intros (L & _ & _ & _ & _ & e1 & e2 & e3 & C1 & C2 & C3 & C4).
  assert (E1 : (e1 <= length d)%nat) by exact (consecutive_end _ _ (question_end c d) _ _ _ C1 L).
  assert (E2 : (e2 <= length d)%nat) by exact (consecutive_end _ _ (record_end c d) _ _ _ C2 E1).
  assert (E3 : (e3 <= length d)%nat) by exact (consecutive_end _ _ (record_end c d) _ _ _ C3 E2).
  assert (E4 : (e <= length d)%nat) by exact (consecutive_end _ _ (record_end c d) _ _ _ C4 E3).
  apply (consecutive_room _ 5 (question_room c d)) in C1. apply (consecutive_room _ 11 (record_room c d)) in C2, C3, C4. lia.
Qed.

(** ** Setter histories *)
Lemma latest_app {K V} (pick : K -> option V) v k ks :
  latest v (given pick (k :: ks)) = latest (match pick k with Some w => w | None => v end) (given pick ks).
Proof.
  unfold latest, given. cbn [flat_map]. destruct (pick k) as [w|]; [|reflexivity]. cbn [app].
  generalize (flat_map (fun k0 => match pick k0 with Some v0 => [v0] | None => [] end) ks) as l. intros l. revert v w.
  induction l as [|x l IH]; intros v w; [reflexivity|]. change (last (w :: x :: l) v) with (last (x :: l) v).
  rewrite (IH v x), (IH w x). reflexivity.
Qed.
Lemma field_history {S K V} (run : S -> K -> S) (get : S -> V) (pick : K -> option V) :
  (forall s k, get (run s k) = match pick k with Some v => v | None => get s end) ->
  forall ks s, get (fold_left run ks s) = latest (get s) (given pick ks).
Proof.
  intros H. induction ks as [|k ks IH]; intros s; [reflexivity|]. cbn [fold_left]. rewrite latest_app, IH, H. reflexivity.
Qed.

(** ** Equality of names *)
Lemma bytes_eqb_iff a : forall b, bytes_eqb a b = true <-> a = b.
Proof.
  induction a as [|x a IH]; intros [|y b]; cbn [bytes_eqb]; split; intros H; try reflexivity; try discriminate.
  - apply andb_true_iff in H. destruct H as [E H]. apply N.eqb_eq in E. apply IH in H. congruence.
  - injection H as -> ->. apply andb_true_iff. split; [apply N.eqb_refl|apply IH; reflexivity].
Qed.
Lemma fqdn_eqb_iff f : forall g, fqdn_eqb f g = true <-> f = g.
Proof.
  induction f as [|x a IH]; intros [|y b]; cbn [fqdn_eqb]; split; intros H; try reflexivity; try discriminate.
  - apply andb_true_iff in H. destruct H as [E H]. apply bytes_eqb_iff in E. apply IH in H. congruence.
  - injection H as -> ->. apply andb_true_iff. split; [apply bytes_eqb_iff; reflexivity|apply IH; reflexivity].
Qed.
Definition upto255 (l : bytes) : Prop := (1 <= length l <= 255)%nat.
Lemma app_inj_length {X} (a b c d : list X) : length a = length b -> a ++ c = b ++ d -> a = b /\ c = d.
Proof.
  revert b. induction a as [|x a IH]; intros [|y b] L E; try discriminate L; [auto|]. injection E as -> E. injection L as L.
  destruct (IH b L E) as [-> ->]. auto.
Qed.
Lemma wire_injective f : Forall upto255 f -> forall g, Forall upto255 g ->
  flat_map label_bytes f ++ [0] = flat_map label_bytes g ++ [0] -> f = g.
Proof.
  assert (Z : forall (l : bytes) x y, upto255 l -> label_bytes l ++ x <> 0 :: y).
  { intros l x y U E. unfold label_bytes in E. injection E as E _. unfold upto255 in U. unfold len8, u8 in E. rewrite N.mod_small in E; lia. }
  induction 1 as [|l f U F IH]; intros g G E; destruct G as [|k g U' G]; cbn [flat_map] in E; try reflexivity.
  - rewrite <- app_assoc in E. symmetry in E. apply Z in E; [contradiction|assumption].
  - rewrite <- app_assoc in E. apply Z in E; [contradiction|assumption].
  - rewrite <- !app_assoc in E. unfold label_bytes at 1 3 in E. cbn [app] in E. injection E as E1 E.
    unfold upto255 in *. unfold len8, u8 in E1. rewrite !N.mod_small in E1 by lia.
    destruct (app_inj_length l k _ _ ltac:(lia) E) as [-> E']. f_equal. exact (IH g G E').
Qed.
Lemma filter_upto f : Forall upto255 f -> filter nonempty f = f.
Proof.
  induction 1 as [|l f U F IH]; [reflexivity|]. cbn [filter]. rewrite IH. destruct l; [destruct U; cbn [length] in *; lia|reflexivity].
Qed.
Lemma names_equal f g : Forall upto255 f -> Forall upto255 g -> (fqdn_eqb f g = true <-> fqdn_to_bytes f = fqdn_to_bytes g).
Proof.
  intros F G. rewrite fqdn_eqb_iff. split; [now intros ->|]. rewrite !fqdn_to_bytes_eq, !filter_upto by assumption. now apply wire_injective.
Qed.

(** ** The order of SVCB keys *)
Lemma cmp_total : (forall a b, pkey_cmp b a = CompOpp (pkey_cmp a b)) /\ (forall a b d, pkey_cmp a b = Lt -> pkey_cmp b d = Lt -> pkey_cmp a d = Lt).
Proof.
  unfold pkey_cmp. split; [intros; apply N.compare_antisym|]. intros a b d. rewrite !N.compare_lt_iff. apply N.lt_trans.
Qed.
Lemma pkey_code_inj a b : pkey_documented a -> pkey_documented b -> pkey_code a = pkey_code b -> a = b.
Proof. destruct a, b; cbn [pkey_documented pkey_code]; intros; try reflexivity; try lia; try (f_equal; lia). Qed.
Lemma pkey_ord : ord_contract pkey_documented pkey_cmp.
Proof.
  split; [|exact cmp_total]. intros a b Da Db. unfold pkey_cmp. rewrite N.compare_eq_iff. split; [now apply pkey_code_inj|congruence].
Qed.

(** ** The order of names *)
Lemma lex_eq {X} (cmp : X -> X -> comparison) (H : forall a b, cmp a b = Eq <-> a = b) a : forall b, lex cmp a b = Eq <-> a = b.
Proof.
  induction a as [|x a IH]; intros [|y b]; cbn [lex]; try (split; congruence).
  destruct (cmp x y) eqn:E; [|split; [discriminate|intros Z; injection Z as -> _; rewrite (proj2 (H y y) eq_refl) in E; discriminate]..].
  apply H in E. subst y. rewrite IH. split; congruence.
Qed.
Lemma lex_lt {X} (cmp : X -> X -> comparison) (lt : X -> X -> Prop) (H : forall a b, cmp a b = Eq <-> a = b) (L : forall a b, cmp a b = Lt <-> lt a b) a :
  forall b, lex cmp a b = Lt <-> before lt a b.
Proof.
  induction a as [|x a IH]; intros [|y b]; cbn [lex].
  - split; [discriminate|]. intros B; inversion B.
  - split; [constructor|reflexivity].
  - split; [discriminate|]. intros B; inversion B.
  - destruct (cmp x y) eqn:E.
    + apply H in E. subst y. rewrite IH. split; [apply before_later|]. intros B. inversion B; subst; [|assumption].
      match goal with Z : lt x x |- _ => apply L in Z; rewrite (proj2 (H x x) eq_refl) in Z; discriminate end.
    + split; [|reflexivity]. intros _. apply before_here, L, E.
    + split; [discriminate|]. intros B. inversion B; subst.
      * match goal with Z : lt x y |- _ => apply L in Z; congruence end.
      * rewrite (proj2 (H y y) eq_refl) in E. discriminate.
Qed.
Lemma lex_opp {X} (cmp : X -> X -> comparison) (H : forall a b, cmp b a = CompOpp (cmp a b)) a : forall b, lex cmp b a = CompOpp (lex cmp a b).
Proof.
  induction a as [|x a IH]; intros [|y b]; cbn [lex]; try reflexivity. rewrite (H x y). destruct (cmp x y); cbn [CompOpp]; auto.
Qed.
Lemma lex_trans {X} (cmp : X -> X -> comparison) (H : forall a b, cmp a b = Eq <-> a = b) (T : forall a b d, cmp a b = Lt -> cmp b d = Lt -> cmp a d = Lt) a :
  forall b d, lex cmp a b = Lt -> lex cmp b d = Lt -> lex cmp a d = Lt.
Proof.
  induction a as [|x a IH]; intros [|y b] [|z d]; cbn [lex]; try discriminate; try reflexivity.
  destruct (cmp x y) eqn:E; try discriminate.
  - apply H in E. subst y. destruct (cmp x z); try discriminate; [apply IH|reflexivity].
  - intros _. destruct (cmp y z) eqn:F; try discriminate.
    + apply H in F. subst z. rewrite E. reflexivity.
    + rewrite (T _ _ _ E F). reflexivity.
Qed.
Lemma fqdn_lt f g : fqdn_cmp f g = Lt <-> before (before N.lt) f g.
Proof.
  unfold fqdn_cmp. apply lex_lt.
  - apply lex_eq. apply N.compare_eq_iff.
  - apply lex_lt; [apply N.compare_eq_iff|apply N.compare_lt_iff].
Qed.
Lemma fqdn_ord : ord_contract (fun _ => True) fqdn_cmp.
Proof.
  assert (E : forall a b, lex N.compare a b = Eq <-> a = b) by (apply lex_eq, N.compare_eq_iff).
  assert (O : forall a b : N, (b ?= a) = CompOpp (a ?= b)) by (intros; apply N.compare_antisym).
  assert (T : forall a b d : N, (a ?= b) = Lt -> (b ?= d) = Lt -> (a ?= d) = Lt) by (intros a b d; rewrite !N.compare_lt_iff; apply N.lt_trans).
  unfold fqdn_cmp. split; [intros a b _ _; apply lex_eq, E|]. split; [intros a b; apply lex_opp; intros; apply lex_opp, O|].
  apply lex_trans; [exact E|]. apply lex_trans; [apply N.compare_eq_iff|exact T].
Qed.

(** ** Record data made from the structs *)
Lemma payload_matches s : rdata_type (into_record_data s) = record_type s.
Proof. destruct s; reflexivity. Qed.
Lemma payload_code s : rtype_code (record_type s) = payload_number s.
Proof. destruct s; reflexivity. Qed.
Lemma payload_all d : (exists s, into_record_data s = d) <-> rdata_type d <> CDS /\ rdata_type d <> CDNSKEY.
Proof.
  split; [intros [s <-]; rewrite payload_matches; destruct s; split; discriminate|]. intros [A B].
  destruct d; try (cbn in A, B; congruence);
  match goal with |- exists s, _ = ?C ?x =>
    first [exists (SA x); reflexivity|exists (SNs x); reflexivity|exists (SCname x); reflexivity|exists (SSoa x); reflexivity|exists (SNull x); reflexivity
    |exists (SWks x); reflexivity|exists (SPtr x); reflexivity|exists (SHinfo x); reflexivity|exists (SMinfo x); reflexivity|exists (SMx x); reflexivity
    |exists (STxt x); reflexivity|exists (SAaaa x); reflexivity|exists (SLoc x); reflexivity|exists (SSrv x); reflexivity|exists (SNaptr x); reflexivity
    |exists (SOpt x); reflexivity|exists (SApl x); reflexivity|exists (SDs x); reflexivity|exists (SSshfp x); reflexivity|exists (SIpSecKey x); reflexivity
    |exists (SRrsig x); reflexivity|exists (SNsec x); reflexivity|exists (SDnsKey x); reflexivity|exists (SDhcid x); reflexivity|exists (STlsa x); reflexivity
    |exists (SHip x); reflexivity|exists (SOpenPgpKey x); reflexivity|exists (SCsync x); reflexivity|exists (SSvcb x); reflexivity|exists (SEui48 x); reflexivity
    |exists (SEui64 x); reflexivity|exists (STkey x); reflexivity|exists (STsig x); reflexivity|exists (SUri x); reflexivity|exists (SCaa x); reflexivity]
  end.
Qed.
