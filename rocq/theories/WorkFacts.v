(** * Facts about the work of compressing. *)
From Coq Require Import Lia ZifyNat ZifyN.
From Verif Require Import Base Buffer Fqdn Header Types RDataBasic Bitmap Svcb RDataSec RData Packet BaseFacts RDataReads LayoutSpec CompressSpec RecordSpec ObjectSpec Work.

Lemma total_cons f a : total_octets (f :: a) = hash_octets f + total_octets a.
Proof. reflexivity. Qed.
Lemma hash_cons l f : hash_octets (l :: f) = 8 + N.of_nat (length l) + hash_octets f.
Proof. reflexivity. Qed.
Lemma total_app a b : total_octets (a ++ b) = total_octets a + total_octets b.
Proof. induction a as [|f a IH]; [reflexivity|]. cbn [app]. rewrite !total_cons, IH. lia. Qed.

(** ** The list is complete: hash functions that agree on it give the same result. *)
Section Agree.
  Variables (c : cfg) (h h' : hasher).
  Definition agree (fs : list fqdn) : Prop := forall f, In f fs -> h f = h' f.
  Lemma agree_app a b : agree (a ++ b) -> agree a /\ agree b.
  Proof. intros A. split; intros f I; apply A, in_or_app; auto. Qed.
  Lemma name_agree f : forall m off, agree (fqdn_hashed h f m off) ->
    fqdn_to_bytes_compressed h' f m off = fqdn_to_bytes_compressed h f m off /\ fqdn_hashed h' f m off = fqdn_hashed h f m off.
  Proof.
    induction f as [|l f IH]; intros m off A; cbn [fqdn_to_bytes_compressed fqdn_hashed] in *; [auto|].
    assert (E : h (l :: f) = h' (l :: f)) by (apply A; left; reflexivity). rewrite <- E.
    destruct (names_get (h (l :: f)) m); [auto|]. destruct (IH (names_insert (h (l :: f)) off m) (off + (length l + 1))%nat) as [-> ->]; [|auto].
    intros g I. apply A. right. exact I.
  Qed.
  Lemma two_agree f g m off : agree (two_hashed h f g m off) -> 
    (let '(b1, m1) := fqdn_to_bytes_compressed h' f m off in let '(b2, m2) := fqdn_to_bytes_compressed h' g m1 (off + length b1) in (b1, b2, m2)) =
    (let '(b1, m1) := fqdn_to_bytes_compressed h f m off in let '(b2, m2) := fqdn_to_bytes_compressed h g m1 (off + length b1) in (b1, b2, m2)).
  Proof.
    unfold two_hashed. intros A. apply agree_app in A. destruct A as [A1 A2]. destruct (name_agree _ _ _ A1) as [-> _].
    destruct (fqdn_to_bytes_compressed h f m off) as [b1 m1]. destruct (name_agree _ _ _ A2) as [-> _]. reflexivity.
  Qed.
  Lemma rdata_agree d m off : agree (rdata_hashed h d m off) -> rdata_to_bytes_compressed c h' d m off = rdata_to_bytes_compressed c h d m off.
  Proof.
    destruct d; cbn [rdata_hashed rdata_to_bytes_compressed]; intros A; try reflexivity; unfold name_to_bytes_compressed, mx_to_bytes_compressed, srv_to_bytes_compressed,
      naptr_to_bytes_compressed, nsec_to_bytes_compressed, soa_to_bytes_compressed, minfo_to_bytes_compressed; try (destruct (name_agree _ _ _ A) as [-> _]; reflexivity).
    - apply two_agree in A. destruct (fqdn_to_bytes_compressed h' _ m off) as [b1 m1]. destruct (fqdn_to_bytes_compressed h _ m off) as [b1' m1'].
      destruct (fqdn_to_bytes_compressed h' _ m1 _) as [b2 m2]. destruct (fqdn_to_bytes_compressed h _ m1' _) as [b2' m2']. injection A as -> -> ->. reflexivity.
    - apply two_agree in A. destruct (fqdn_to_bytes_compressed h' _ m off) as [b1 m1]. destruct (fqdn_to_bytes_compressed h _ m off) as [b1' m1'].
      destruct (fqdn_to_bytes_compressed h' _ m1 _) as [b2 m2]. destruct (fqdn_to_bytes_compressed h _ m1' _) as [b2' m2']. injection A as -> -> ->. reflexivity.
  Qed.
  Lemma rr_agree r m off : agree (rr_hashed h r m off) -> rr_to_bytes_compressed c h' r m off = rr_to_bytes_compressed c h r m off.
  Proof.
    unfold rr_hashed, rr_to_bytes_compressed. intros A. apply agree_app in A. destruct A as [A1 A2]. destruct (name_agree _ _ _ A1) as [-> _].
    destruct (fqdn_to_bytes_compressed h (rr_name r) m off) as [nb m1]. 
    replace (off + length (nb ++ be 2 (rtype_code (rr_type r)) ++ be 2 (rr_class_field c r) ++ be 4 (rr_ttl r)) + 2)%nat with (off + (length nb + 8) + 2)%nat
      by (rewrite !app_length, !be_length; lia).
    rewrite (rdata_agree _ _ _ A2). reflexivity.
  Qed.
  Lemma questions_agree qs : forall bin m, agree (questions_hashed c h qs bin m) -> questions_compressed c h' qs bin m = questions_compressed c h qs bin m.
  Proof.
    induction qs as [|q qs IH]; intros bin m A; cbn [questions_hashed questions_compressed] in *; [reflexivity|]. apply agree_app in A. destruct A as [A1 A2].
    unfold question_to_bytes_compressed, question_hashed in *. destruct (name_agree _ _ _ A1) as [-> _].
    destruct (fqdn_to_bytes_compressed h (q_name q) m (length bin)) as [nb m']. apply IH, A2.
  Qed.
  Lemma records_agree rs : forall bin m, agree (records_hashed c h rs bin m) -> records_compressed c h' rs bin m = records_compressed c h rs bin m.
  Proof.
    induction rs as [|r rs IH]; intros bin m A; cbn [records_hashed records_compressed] in *; [reflexivity|]. apply agree_app in A. destruct A as [A1 A2].
    rewrite (rr_agree _ _ _ A1). destruct (rr_to_bytes_compressed c h r m (length bin)) as [[b m']| | |]; try reflexivity. cbn [rbind fst snd]. apply IH, A2.
  Qed.
  Lemma packet_agree p : agree (packet_hashed c h p) -> packet_to_bytes_compressed c h' p = packet_to_bytes_compressed c h p.
  Proof.
    unfold packet_hashed, packet_to_bytes_compressed. cbv zeta. intros A. apply agree_app in A. destruct A as [A0 A]. apply agree_app in A. destruct A as [A1 A].
    apply agree_app in A. destruct A as [A2 A3]. rewrite (questions_agree _ _ _ A0). destruct (questions_compressed c h (p_questions p) _ _) as [b0 m0]. cbn [fst snd section_hashed] in *.
    rewrite (records_agree _ _ _ A1). destruct (records_compressed c h (p_answers p) b0 m0) as [[b1 m1]| | |]; try reflexivity. cbn [rbind fst snd section_hashed] in *.
    rewrite (records_agree _ _ _ A2). destruct (records_compressed c h (p_authorities p) b1 m1) as [[b2 m2]| | |]; try reflexivity. cbn [rbind fst snd section_hashed] in *.
    rewrite (records_agree _ _ _ A3). reflexivity.
  Qed.
End Agree.

(** ** What is hashed, compared to what is written. *)
Section Bound.
  Variables (c : cfg) (h : hasher) (k : N).
  Definition bounded (f : fqdn) : Prop := hash_octets f <= k.
  Lemma name_work f : forall m off, bounded f -> total_octets (fqdn_hashed h f m off) <= k * N.of_nat (length (fst (fqdn_to_bytes_compressed h f m off))).
  Proof.
    induction f as [|l f IH]; intros m off B; cbn [fqdn_hashed fqdn_to_bytes_compressed]; [apply N.le_0_l|].
    unfold bounded in *. rewrite total_cons. assert (B' : hash_octets f <= k) by (rewrite hash_cons in B; lia).
    destruct (names_get (h (l :: f)) m) as [p|].
    - cbn [fst]. change (length (pointer_bytes p)) with 2%nat. change (total_octets []) with 0. lia.
    - specialize (IH (names_insert (h (l :: f)) off m) (off + (length l + 1))%nat B').
      destruct (fqdn_to_bytes_compressed h f _ _) as [bs m']. cbn [fst] in *. cbn [length]. rewrite app_length. nia.
  Qed.
  Lemma two_work f g m off b1 m1 b2 m2 : bounded f -> bounded g -> fqdn_to_bytes_compressed h f m off = (b1, m1) ->
    fqdn_to_bytes_compressed h g m1 (off + length b1) = (b2, m2) -> total_octets (two_hashed h f g m off) <= k * N.of_nat (length b1 + length b2).
  Proof.
    intros F G E1 E2. unfold two_hashed. rewrite total_app. pose proof (name_work f m off F) as W1. rewrite E1 in *.
    pose proof (name_work g m1 (off + length b1)%nat G) as W2. rewrite E2 in W2. cbn [fst] in *. nia.
  Qed.
  Lemma rdata_work d m off b m' : Forall bounded (rdata_names d) -> rdata_to_bytes_compressed c h d m off = Ok (b, m') ->
    total_octets (rdata_hashed h d m off) <= k * N.of_nat (length b).
  Proof.
    destruct d; cbn [rdata_names rdata_hashed rdata_to_bytes_compressed]; intros B E; try apply N.le_0_l;
      unfold name_to_bytes_compressed, mx_to_bytes_compressed, srv_to_bytes_compressed, naptr_to_bytes_compressed, nsec_to_bytes_compressed, soa_to_bytes_compressed,
        minfo_to_bytes_compressed in E; apply Forall_cons_iff in B; destruct B as [B1 B].
    all: try (match type of B with Forall _ (_ :: _) => apply Forall_cons_iff in B; destruct B as [B2 _] end).
    all: match goal with
      | |- total_octets (fqdn_hashed _ ?f ?m ?o) <= _ => pose proof (name_work f m o B1) as W; destruct (fqdn_to_bytes_compressed h f m o) as [nb m1]; cbn [fst] in W
      | |- total_octets (two_hashed _ ?f ?g ?m ?o) <= _ => destruct (fqdn_to_bytes_compressed h f m o) as [b1 m1] eqn:E1; destruct (fqdn_to_bytes_compressed h g m1 (o + length b1)) as [b2 m2] eqn:E2;
          pose proof (two_work f g m o b1 m1 b2 m2 B1 B2 E1 E2) as W
      end.
    all: try (apply Ok_inj, pair_equal_spec in E; destruct E as [<- _]; rewrite ?app_length; nia).
    destruct (types_to_bytes c (ns_types x)) as [t| | |]; try discriminate. cbn [rbind] in E. apply Ok_inj, pair_equal_spec in E. destruct E as [<- _]. rewrite app_length. nia.
  Qed.
  Lemma rr_work r m off b m' : Forall bounded (rr_names r) -> rr_to_bytes_compressed c h r m off = Ok (b, m') ->
    total_octets (rr_hashed h r m off) <= k * N.of_nat (length b).
  Proof.
    unfold rr_names, rr_hashed, rr_to_bytes_compressed. intros B E. apply Forall_cons_iff in B. destruct B as [B1 B]. rewrite total_app.
    pose proof (name_work (rr_name r) m off B1) as W1. destruct (fqdn_to_bytes_compressed h (rr_name r) m off) as [nb m1]. cbn [fst] in W1.
    replace (off + length (nb ++ be 2 (rtype_code (rr_type r)) ++ be 2 (rr_class_field c r) ++ be 4 (rr_ttl r)) + 2)%nat with (off + (length nb + 8) + 2)%nat in E
      by (rewrite !app_length, !be_length; lia).
    destruct (rdata_to_bytes_compressed c h (rr_data r) m1 (off + (length nb + 8) + 2)) as [[db m2]| | |] eqn:ED; try discriminate. cbn [rbind fst snd] in E.
    pose proof (rdata_work _ _ _ _ _ B ED) as W2. apply Ok_inj, pair_equal_spec in E. destruct E as [<- _]. rewrite !app_length. nia.
  Qed.
  Lemma questions_work qs : forall bin m, Forall (fun q => bounded (q_name q)) qs ->
    total_octets (questions_hashed c h qs bin m) + k * N.of_nat (length bin) <= k * N.of_nat (length (fst (questions_compressed c h qs bin m))).
  Proof.
    induction qs as [|q qs IH]; intros bin m B; cbn [questions_hashed questions_compressed]; [apply N.le_refl|]. apply Forall_cons_iff in B. destruct B as [B1 B].
    rewrite total_app. unfold question_hashed, question_to_bytes_compressed. pose proof (name_work (q_name q) m (length bin) B1) as W1.
    destruct (fqdn_to_bytes_compressed h (q_name q) m (length bin)) as [nb m1]. cbn [fst] in W1.
    match goal with |- context [questions_compressed c h qs ?b ?m] => specialize (IH b m B) end. rewrite !app_length in IH. nia.
  Qed.
  Lemma records_work rs : forall bin m b m', Forall bounded (flat_map rr_names rs) -> records_compressed c h rs bin m = Ok (b, m') ->
    total_octets (records_hashed c h rs bin m) + k * N.of_nat (length bin) <= k * N.of_nat (length b).
  Proof.
    induction rs as [|r rs IH]; intros bin m b m' B E; cbn [records_hashed records_compressed flat_map] in *.
    - apply Ok_inj, pair_equal_spec in E. destruct E as [<- _]. apply N.le_refl.
    - apply Forall_app in B. destruct B as [B1 B]. rewrite total_app.
      destruct (rr_to_bytes_compressed c h r m (length bin)) as [[b1 m1]| | |] eqn:ER; try discriminate. cbn [rbind fst snd] in E.
      pose proof (rr_work _ _ _ _ _ B1 ER) as W1. specialize (IH _ _ _ _ B E). rewrite app_length in IH. nia.
  Qed.
  Lemma packet_work p b : Forall bounded (packet_names p) -> packet_to_bytes_compressed c h p = Ok b -> total_octets (packet_hashed c h p) <= k * N.of_nat (length b).
  Proof.
    unfold packet_names, records_of, packet_hashed, packet_to_bytes_compressed. cbv zeta. intros B E. apply Forall_app in B. destruct B as [B0 B].
    rewrite !flat_map_app in B. apply Forall_app in B. destruct B as [B1 B]. apply Forall_app in B. destruct B as [B2 B3]. apply (proj1 (Forall_map q_name _ _)) in B0. rewrite !total_app.
    pose proof (questions_work (p_questions p) (header_to_bytes (p_header p)) [] B0) as W0.
    destruct (questions_compressed c h (p_questions p) _ _) as [b0 m0]. cbn [fst snd section_hashed] in *.
    destruct (records_compressed c h (p_answers p) b0 m0) as [[b1 m1]| | |] eqn:E1; try discriminate. cbn [rbind fst snd section_hashed] in *. pose proof (records_work _ _ _ _ _ B1 E1) as W1.
    destruct (records_compressed c h (p_authorities p) b1 m1) as [[b2 m2]| | |] eqn:E2; try discriminate. cbn [rbind fst snd section_hashed] in *. pose proof (records_work _ _ _ _ _ B2 E2) as W2.
    destruct (records_compressed c h (p_additionals p) b2 m2) as [[b3 m3]| | |] eqn:E3; try discriminate. cbn [rbind fst snd] in *. pose proof (records_work _ _ _ _ _ B3 E3) as W3.
    apply Ok_inj in E. subst b3. nia.
  Qed.
End Bound.

(** Names that keep the limits of RFC 1035. *)
Lemma rfc_octets f : rfc_sizes f -> hash_octets f <= 2040.
Proof.
  intros (_ & L). assert (G : hash_octets f + 7 <= 8 * N.of_nat (octets_in_name f) + 7).
  { clear L. induction f as [|l f IH]; [cbn; lia|]. rewrite hash_cons. change (octets_in_name (l :: f)) with (1 + length l + octets_in_name f)%nat. lia. }
  lia.
Qed.

(** ** A lower bound: a new name is hashed once for each of its labels. *)
Fixpoint name_tails (f : fqdn) : list fqdn := match f with [] => [] | _ :: f' => f :: name_tails f' end.
Lemma tails_hashed h f : forall m off, (forall s, tail_of [f] s -> names_get (h s) m = None) -> hash_separates h [f] -> fqdn_hashed h f m off = name_tails f.
Proof.
  induction f as [|l f IH]; intros m off M S; [reflexivity|]. cbn [fqdn_hashed name_tails].
  assert (T0 : tail_of [l :: f] (l :: f)) by (split; [discriminate|]; exists (l :: f), []; split; [left|]; reflexivity).
  assert (T : forall s, tail_of [f] s -> tail_of [l :: f] s).
  { intros s (N & g & a & [<-|[]] & E). split; [exact N|]. exists (l :: f), (l :: a). split; [left; reflexivity|]. rewrite E. reflexivity. }
  rewrite (M _ T0). f_equal. apply IH.
  - intros s Ts. unfold names_insert. cbn [names_get]. destruct (h s =? h (l :: f)) eqn:E; [|apply M, T, Ts]. exfalso. apply N.eqb_eq in E. symmetry in E.
    specialize (S _ _ T0 (T s Ts) E). destruct Ts as (_ & g & a & [<-|[]] & E'). subst s. apply (f_equal (@length _)) in E'. rewrite app_length in E'. cbn in E'. lia.
  - intros s1 s2 T1 T2. apply S; apply T; assumption.
Qed.
Lemma one_letter_octets k : total_octets (name_tails (repeat [97] k)) * 2 = 9 * N.of_nat k * N.of_nat k + 25 * N.of_nat k.
Proof.
  assert (H : forall k, hash_octets (repeat [97] k) = 8 + 9 * N.of_nat k) by (clear; induction k as [|k IH]; [reflexivity|]; cbn [repeat]; rewrite hash_cons, IH; cbn [length]; lia).
  induction k as [|k IH]; [reflexivity|]. cbn [repeat name_tails]. rewrite total_cons, N.mul_add_distr_r, IH. change ([97] :: repeat [97] k) with (repeat [97] (S k)). rewrite H. lia.
Qed.
