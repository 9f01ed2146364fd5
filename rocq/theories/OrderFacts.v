(** * The length of a compressed message, and that it does not depend on the order. *)
From Coq Require Import Lia ZifyNat ZifyN Permutation.
From Verif Require Import Base Buffer Fqdn Header Types RDataBasic Bitmap Svcb RDataSec RData Packet Misc BaseFacts
  HeaderFacts FqdnFacts BitmapFacts CompressSpec ChunkFacts RDataSpec RDataFacts RecordSpec AnnounceFacts OrderSpec.

Lemma ok_inj {A} (a b : A) : Ok a = Ok b -> a = b.
Proof. intros E. injection E as E. exact E. Qed.
Lemma total_app {X} (g : X -> nat) a b : total g (a ++ b) = (total g a + total g b)%nat.
Proof. induction a as [|x a IH]; cbn [app total fold_right]; [reflexivity|]. unfold total in IH. rewrite IH. unfold total. lia. Qed.
Lemma total_perm {X} (g : X -> nat) a b : Permutation a b -> total g a = total g b.
Proof. induction 1; unfold total in *; cbn [fold_right]; lia. Qed.

Section Count.
Context (h : hasher) (U : fqdn -> Prop) (NC : forall s t, U s -> U t -> h s = h t -> s = t).

(** The dictionary knows exactly the tails in [S']. *)
Definition knows (m : names) (S' : list fqdn) : Prop := forall t, U t -> (names_get (h t) m <> None <-> In t S').

Lemma knows_insert m S' f off : U f -> knows m S' -> knows (names_insert (h f) off m) (f :: S').
Proof.
  intros Uf K t Ut. unfold names_insert. cbn [names_get In].
  destruct (h t =? h f) eqn:E.
  - apply N.eqb_eq in E. apply (NC _ _ Ut Uf) in E. subst t. split; [auto|discriminate].
  - rewrite (K t Ut). split; [auto|]. intros [->|I]; [|exact I]. rewrite N.eqb_refl in E. discriminate.
Qed.

Lemma name_counted f : forall m S' off, (forall t, In t (tails_of f) -> U t) -> knows m S' -> NoDup S' ->
  (forall t u, In t S' -> (length t <= length f)%nat -> In u (tails_of t) -> In u S') ->
  exists T, NoDup (T ++ S') /\ (forall t, In t (T ++ S') <-> In t S' \/ In t (tails_of f)) /\
    knows (snd (fqdn_byte_size_compressed h f m off)) (T ++ S') /\
    (fst (fqdn_byte_size_compressed h f m off) + is_root f + total is_top T = total first_label T + 2)%nat.
Proof.
  induction f as [|l f IH]; intros m S' off HU K ND HC.
  - exists []. cbn. split; [exact ND|]. split; [tauto|]. split; [exact K|reflexivity].
  - cbn [fqdn_byte_size_compressed].
    assert (Uf : U (l :: f)) by (apply HU; left; reflexivity).
    pose proof (K _ Uf) as KF. destruct (names_get (h (l :: f)) m) as [p|].
    + assert (I : In (l :: f) S') by (apply KF; discriminate).
      exists []. cbn [app fst snd]. split; [exact ND|]. split; [|split; [exact K|reflexivity]].
      intros t. split; [auto|]. intros [H|H]; [exact H|]. exact (HC _ t I (le_n _) H).
    + assert (NI : ~ In (l :: f) S') by (intros I; apply KF in I; congruence).
      destruct (IH (names_insert (h (l :: f)) off m) ((l :: f) :: S') (off + (length l + 1))%nat) as (T & D & E & K' & Q).
      * intros t I. apply HU. right. exact I.
      * apply knows_insert; assumption.
      * constructor; assumption.
      * intros t u [<-|I] L Iu; [exfalso; exact (Nat.nle_succ_diag_l _ L)|]. right. apply (HC t u I); [exact (le_S _ _ L)|exact Iu].
      * destruct (fqdn_byte_size_compressed h f _ _) as [n m']. cbn [fst snd] in *.
        exists (T ++ [l :: f]). rewrite <- app_assoc. cbn [app]. split; [exact D|]. split.
        { intros t. rewrite E. cbn [tails_of In]. tauto. }
        split; [exact K'|]. rewrite !total_app. cbn [total fold_right first_label is_root].
        assert (is_top (l :: f) = is_root f) by (destruct f; reflexivity). lia.
Qed.

Fixpoint names_size (fs : list fqdn) (m : names) : nat * names :=
  match fs with
  | [] => (0%nat, m)
  | f :: fs' => let r := fqdn_byte_size_compressed h f m 0 in let s := names_size fs' (snd r) in ((fst r + fst s)%nat, snd s)
  end.
Lemma tails_closed f : forall t u, In t (tails_of f) -> In u (tails_of t) -> In u (tails_of f).
Proof.
  induction f as [|l f IH]; intros t u I J; cbn [tails_of In] in *; [destruct I|].
  destruct I as [<-|I]; [exact J|]. right. eauto.
Qed.
Lemma names_counted fs : forall m S' , (forall f t, In f fs -> In t (tails_of f) -> U t) -> knows m S' -> NoDup S' ->
  (forall t u, In t S' -> In u (tails_of t) -> In u S') ->
  exists T, NoDup (T ++ S') /\ (forall t, In t (T ++ S') <-> In t S' \/ In t (flat_map tails_of fs)) /\
    (fst (names_size fs m) + total is_root fs + total is_top T = total first_label T + 2 * length fs)%nat.
Proof.
  induction fs as [|f fs IH]; intros m S' HU K ND HC; cbn [names_size flat_map].
  - exists []. cbn. split; [exact ND|]. split; [tauto|reflexivity].
  - destruct (name_counted f m S' 0) as (T & D & E & K' & Q); [intros t; apply HU; left; reflexivity|exact K|exact ND|intros t u I _; apply HC, I|].
    cbv zeta. destruct (fqdn_byte_size_compressed h f m 0) as [n m']. cbn [fst snd] in *.
    destruct (IH m' (T ++ S')) as (T2 & D2 & E2 & Q2); [intros g t I; apply HU; right; exact I|exact K'|exact D| |].
    + intros t u I J. apply E in I. apply E. destruct I as [I|I]; [left; eapply HC; eassumption|right; eapply tails_closed; eassumption].
    + exists (T2 ++ T). rewrite <- app_assoc. split; [exact D2|]. split.
      * intros t. rewrite E2, E, in_app_iff. tauto.
      * rewrite !total_app. cbn [total fold_right length] in *. unfold total in *. lia.
Qed.
End Count.

Lemma tails_tail_of fs t : In t (flat_map tails_of fs) -> tail_of fs t.
Proof.
  intros I. apply in_flat_map in I. destruct I as (f & F & I).
  assert (G : forall g u, In u (tails_of g) -> u <> [] /\ exists a, g = a ++ u).
  { induction g as [|l g IH]; intros u J; [destruct J|]. destruct J as [<-|J]; [split; [discriminate|exists []; reflexivity]|].
    destruct (IH _ J) as (N & a & ->). split; [exact N|exists (l :: a); reflexivity]. }
  destruct (G f t I) as (N & a & ->). split; [exact N|]. exists (a ++ t), a. auto.
Qed.
Lemma names_shared h fs : hash_separates h fs -> shared fs (fst (names_size h fs [])).
Proof.
  intros HS. destruct (names_counted h (tail_of fs) HS fs [] []) as (T & D & E & Q).
  - intros f t F I. apply tails_tail_of, in_flat_map. eauto.
  - intros t _. cbn. tauto.
  - constructor.
  - intros t u [].
  - rewrite app_nil_r in D, E. unfold shared, distinct_tails.
    assert (P : Permutation T (nodup name_eq_dec (flat_map tails_of fs))).
    { apply NoDup_Permutation; [exact D|apply NoDup_nodup|]. intros t. rewrite E, nodup_In. cbn. tauto. }
    rewrite <- (total_perm is_top _ _ P), <- (total_perm first_label _ _ P). exact Q.
Qed.

(** ** From names to messages *)
Section Message.
Context (c : cfg) (h : hasher).
Lemma sized_offsets f m1 m2 o1 o2 : same_keys m1 m2 ->
  fst (fqdn_byte_size_compressed h f m1 o1) = fst (fqdn_byte_size_compressed h f m2 o2) /\
  same_keys (snd (fqdn_byte_size_compressed h f m1 o1)) (snd (fqdn_byte_size_compressed h f m2 o2)).
Proof. intros K. rewrite !compressed_size. cbn [fst snd]. apply compressed_size_offsets, K. Qed.
Lemma same_keys_trans m1 m2 m3 : same_keys m1 m2 -> same_keys m2 m3 -> same_keys m1 m3.
Proof. intros A B k. rewrite (A k). apply B. Qed.
Lemma names_size_keys fs : forall m1 m2, same_keys m1 m2 ->
  fst (names_size h fs m1) = fst (names_size h fs m2) /\ same_keys (snd (names_size h fs m1)) (snd (names_size h fs m2)).
Proof.
  induction fs as [|f fs IH]; intros m1 m2 K; cbn [names_size]; cbv zeta; [cbn; auto|].
  destruct (sized_offsets f m1 m2 0 0 K) as (A & B). destruct (IH _ _ B) as (C & D). cbn [fst snd]. split; [lia|exact D].
Qed.
Lemma names_size_app a b m : names_size h (a ++ b) m =
  ((fst (names_size h a m) + fst (names_size h b (snd (names_size h a m))))%nat, snd (names_size h b (snd (names_size h a m)))).
Proof.
  revert m. induction a as [|f a IH]; intros m; cbn [app names_size]; cbv zeta.
  - cbn [fst snd]. apply surjective_pairing.
  - rewrite IH. cbn [fst snd]. f_equal. lia.
Qed.

(** [fs]: the names in what was written; [rest]: the other octets. *)
Definition holds (fs : list fqdn) (rest : nat) (m : names) (n : nat) (m' : names) : Prop :=
  n = (rest + fst (names_size h fs m))%nat /\ same_keys m' (snd (names_size h fs m)).
Lemma name_held f m1 m2 o : same_keys m1 m2 ->
  fst (names_size h [f] m1) = length (fst (fqdn_to_bytes_compressed h f m2 o)) /\
  same_keys (snd (fqdn_to_bytes_compressed h f m2 o)) (snd (names_size h [f] m1)).
Proof.
  intros K. cbn [names_size]. cbv zeta. cbn [fst snd]. destruct (name_announced h f m1 m2 0 o K) as (A & B).
  rewrite Nat.add_0_r. split; [exact A|apply same_keys_sym, B].
Qed.
Lemma holds_app fs gs r1 r2 m n1 n2 m1 m2 : holds fs r1 m n1 m1 -> holds gs r2 m1 n2 m2 -> holds (fs ++ gs) (r1 + r2) m (n1 + n2) m2.
Proof.
  intros (A & K) (B & L). unfold holds. rewrite names_size_app. cbn [fst snd].
  destruct (names_size_keys gs _ _ K) as (C & D). split; [lia|]. eapply same_keys_trans; eassumption.
Qed.
Lemma holds_name f m o : holds [f] 0 m (length (fst (fqdn_to_bytes_compressed h f m o))) (snd (fqdn_to_bytes_compressed h f m o)).
Proof. destruct (name_held f m m o (same_keys_refl m)) as (A & B). split; [exact (eq_sym A)|exact B]. Qed.
Lemma holds_fixed k m : holds [] k m k m.
Proof. split; [cbn; lia|apply same_keys_refl]. Qed.

(** Octets of the data that are not compressible names. *)
Definition plain_names (fs : list fqdn) : nat := total (fun f => length (fqdn_to_bytes f)) fs.
Definition data_rest (d : rdata) : res nat :=
  match d with
  | DNS _ | DCNAME _ | DPTR _ | DMINFO _ => Ok 0%nat
  | DSOA _ => Ok 20%nat
  | DMX _ => Ok 2%nat
  | DSRV _ => Ok 6%nat
  | DNAPTR x => Ok (length (naptr_fixed_bytes x))
  | DNSEC x => let! ts := types_to_bytes c (ns_types x) in Ok (length ts)
  | _ => let! bs := rdata_to_bytes c d in Ok (length bs)
  end.
Lemma data_plain d bs : rdata_to_bytes c d = Ok bs -> exists r, data_rest d = Ok r /\ length bs = (r + plain_names (rdata_names d))%nat.
Proof.
  intros E.
  assert (P1 : forall f, plain_names [f] = length (fqdn_to_bytes f)) by (intros; unfold plain_names, total; cbn [fold_right]; lia).
  assert (P2 : forall f g, plain_names [f; g] = (length (fqdn_to_bytes f) + length (fqdn_to_bytes g))%nat) by (intros; unfold plain_names, total; cbn [fold_right]; lia).
  assert (G : exists r, (let! bs := rdata_to_bytes c d in Ok (length bs)) = Ok r /\ length bs = (r + plain_names [])%nat).
  { exists (length bs). rewrite E. cbn [rbind plain_names total fold_right]. split; [reflexivity|unfold plain_names, total; cbn [fold_right]; lia]. }
  destruct d; cbn [data_rest rdata_names]; try exact G; clear G; cbn [rdata_to_bytes] in E; rewrite ?P1, ?P2;
    try (apply ok_inj in E; subst bs; eexists; split; [reflexivity|]);
    unfold name_to_bytes, soa_to_bytes, minfo_to_bytes, mx_to_bytes, srv_to_bytes, naptr_to_bytes; rewrite ?app_length, ?be_length;
    try change (length (soa_fixed_bytes x)) with 20%nat; try change (length (srv_fixed_bytes x)) with 6%nat; try lia.
  unfold nsec_to_bytes in E. apply rbind_ok in E. destruct E as (? & _ & E). apply rbind_ok in E. destruct E as (ts & -> & E).
  apply ok_inj in E. subst bs. eexists. split; [reflexivity|]. rewrite app_length. lia.
Qed.

Lemma data_held d m o :
  match rdata_to_bytes_compressed c h d m o with
  | Ok b => exists r, data_rest d = Ok r /\ holds (rdata_names d) r m (length (fst b)) (snd b)
  | Err e => data_rest d = Err e
  | Panic => data_rest d = Panic
  | Diverge => data_rest d = Diverge
  end.
Proof.
  assert (G : match (let! b := rdata_to_bytes c d in Ok (b, m)) with
    | Ok b => exists r, (let! bs := rdata_to_bytes c d in Ok (length bs)) = Ok r /\ holds [] r m (length (fst b)) (snd b)
    | Err e => (let! bs := rdata_to_bytes c d in Ok (length bs)) = Err e
    | Panic => (let! bs := rdata_to_bytes c d in Ok (length bs)) = Panic
    | Diverge => (let! bs := rdata_to_bytes c d in Ok (length bs)) = Diverge end).
  { destruct (rdata_to_bytes c d) as [bs| | |]; cbn [rbind]; auto. exists (length bs). split; [reflexivity|apply holds_fixed]. }
  destruct d; cbn [rdata_to_bytes_compressed rdata_names data_rest]; try exact G; clear G;
    unfold name_to_bytes_compressed, soa_to_bytes_compressed, minfo_to_bytes_compressed, mx_to_bytes_compressed,
      srv_to_bytes_compressed, naptr_to_bytes_compressed, nsec_to_bytes_compressed; cbv zeta.
  - eexists. split; [reflexivity|apply holds_name].
  - eexists. split; [reflexivity|apply holds_name].
  - pose proof (holds_name (soa_mname x) m o) as A. destruct (fqdn_to_bytes_compressed h (soa_mname x) m o) as [b1 m1]. cbn [fst snd] in A.
    pose proof (holds_name (soa_rname x) m1 (o + length b1)) as B. destruct (fqdn_to_bytes_compressed h (soa_rname x) m1 _) as [b2 m2]. cbn [fst snd] in *.
    eexists. split; [reflexivity|]. rewrite !app_length. change (length (soa_fixed_bytes x)) with 20%nat.
    replace (length b1 + (length b2 + 20))%nat with (length b1 + length b2 + 20)%nat by lia.
    exact (holds_app [soa_mname x; soa_rname x] [] (0 + 0) 20 _ _ _ _ _ (holds_app _ _ _ _ _ _ _ _ _ A B) (holds_fixed 20 _)).
  - eexists. split; [reflexivity|apply holds_name].
  - pose proof (holds_name (minfo_r x) m o) as A. destruct (fqdn_to_bytes_compressed h (minfo_r x) m o) as [b1 m1]. cbn [fst snd] in A.
    pose proof (holds_name (minfo_e x) m1 (o + length b1)) as B. destruct (fqdn_to_bytes_compressed h (minfo_e x) m1 _) as [b2 m2]. cbn [fst snd] in *.
    eexists. split; [reflexivity|]. rewrite !app_length. exact (holds_app _ _ _ _ _ _ _ _ _ A B).
  - pose proof (holds_name (mx_exchange x) m (o + 2)) as A. destruct (fqdn_to_bytes_compressed h (mx_exchange x) m _) as [b1 m1]. cbn [fst snd] in *.
    eexists. split; [reflexivity|]. rewrite !app_length, !be_length.
    exact (holds_app [] _ 2 0 _ _ _ _ _ (holds_fixed 2 _) A).
  - pose proof (holds_name (srv_target x) m (o + 6)) as A. destruct (fqdn_to_bytes_compressed h (srv_target x) m _) as [b1 m1]. cbn [fst snd] in *.
    eexists. split; [reflexivity|]. rewrite !app_length. change (length (srv_fixed_bytes x)) with 6%nat.
    exact (holds_app [] _ 6 0 _ _ _ _ _ (holds_fixed 6 _) A).
  - pose proof (holds_name (na_repl x) m (o + length (naptr_fixed_bytes x))) as A. destruct (fqdn_to_bytes_compressed h (na_repl x) m _) as [b1 m1]. cbn [fst snd] in *.
    eexists. split; [reflexivity|]. rewrite !app_length.
    replace (length (naptr_fixed_bytes x)) with (length (naptr_fixed_bytes x) + 0)%nat at 1 by lia.
    exact (holds_app [] _ _ 0 _ _ _ _ _ (holds_fixed _ _) A).
  - pose proof (holds_name (ns_next x) m o) as A. destruct (fqdn_to_bytes_compressed h (ns_next x) m o) as [b1 m1]. cbn [fst snd] in A.
    destruct (types_to_bytes c (ns_types x)) as [ts| | |]; cbn [rbind]; auto.
    eexists. split; [reflexivity|]. cbn [fst snd]. rewrite !app_length.
    exact (holds_app _ [] 0 (length ts) _ _ _ _ _ A (holds_fixed _ _)).
Qed.

(** Entries of a section, one after the other. *)
Definition rests (rs : list rr) : res nat := fold_right (fun r k => let! a := data_rest (rr_data r) in let! b := k in Ok (10 + a + b)%nat) (Ok 0%nat) rs.
Lemma question_held q m o : holds [q_name q] 4 m (length (fst (question_to_bytes_compressed c h q m o))) (snd (question_to_bytes_compressed c h q m o)).
Proof.
  unfold question_to_bytes_compressed. pose proof (holds_name (q_name q) m o) as A. destruct (fqdn_to_bytes_compressed h (q_name q) m o) as [b m1]. cbn [fst snd] in *.
  rewrite !app_length, !be_length. exact (holds_app _ [] 0 4 _ _ _ _ _ A (holds_fixed 4 _)).
Qed.
Lemma questions_held qs : forall b m, exists n, length (fst (questions_compressed c h qs b m)) = (length b + n)%nat /\
  holds (map q_name qs) (4 * length qs) m n (snd (questions_compressed c h qs b m)).
Proof.
  induction qs as [|q qs IH]; intros b m; cbn [questions_compressed map length].
  - exists 0%nat. cbn [fst snd]. split; [lia|apply holds_fixed].
  - pose proof (question_held q m (length b)) as A. destruct (question_to_bytes_compressed c h q m (length b)) as [x m1]. cbn [fst snd] in A.
    destruct (IH (b ++ x) m1) as (n & L & H). exists (length x + n)%nat. split; [rewrite L, app_length; lia|].
    replace (4 * S (length qs))%nat with (4 + 4 * length qs)%nat by lia. exact (holds_app [q_name q] _ _ _ _ _ _ _ _ A H).
Qed.
Lemma record_held r m o :
  match rr_to_bytes_compressed c h r m o with
  | Ok b => exists k, data_rest (rr_data r) = Ok k /\ holds (rr_names r) (10 + k) m (length (fst b)) (snd b)
  | _ => match data_rest (rr_data r) with Ok _ => False | _ => True end
  end.
Proof.
  unfold rr_to_bytes_compressed, rr_names. pose proof (holds_name (rr_name r) m o) as A. destruct (fqdn_to_bytes_compressed h (rr_name r) m o) as [b m1]. cbn [fst snd] in A.
  cbv zeta. match goal with |- context [rdata_to_bytes_compressed c h (rr_data r) m1 ?o'] => pose proof (data_held (rr_data r) m1 o') as D;
    destruct (rdata_to_bytes_compressed c h (rr_data r) m1 o') as [[x m2]| | |] end; cbn [rbind] in *.
  - destruct D as (k & D & H). exists k. split; [exact D|]. cbn [fst snd] in *. rewrite !app_length, !be_length.
    replace (length b + (2 + (2 + 4)) + (2 + length x))%nat with (length b + 10 + length x)%nat by lia.
    pose proof (holds_app _ [] 0 10 _ _ _ _ _ A (holds_fixed 10 _)) as B. exact (holds_app _ _ _ _ _ _ _ _ _ B H).
  - rewrite D. exact I.
  - rewrite D. exact I.
  - rewrite D. exact I.
Qed.
Lemma records_held rs : forall b m,
  match records_compressed c h rs b m with
  | Ok s => exists k n, rests rs = Ok k /\ length (fst s) = (length b + n)%nat /\ holds (flat_map rr_names rs) k m n (snd s)
  | _ => match rests rs with Ok _ => False | _ => True end
  end.
Proof.
  induction rs as [|r rs IH]; intros b m; cbn [records_compressed flat_map rests fold_right].
  - exists 0%nat, 0%nat. cbn [fst snd]. split; [reflexivity|]. split; [lia|apply holds_fixed].
  - pose proof (record_held r m (length b)) as A. fold (rests rs).
    destruct (rr_to_bytes_compressed c h r m (length b)) as [[x m1]| | |]; cbn [rbind fst snd] in *;
      [|destruct (data_rest (rr_data r)); cbn [rbind]; try contradiction; auto..].
    destruct A as (k & D & H). rewrite D. cbn [rbind]. specialize (IH (b ++ x) m1).
    destruct (records_compressed c h rs (b ++ x) m1) as [s| | |]; [|destruct (rests rs); cbn [rbind]; try contradiction; auto..].
    destruct IH as (k' & n & D' & L & H'). rewrite D'. cbn [rbind]. exists (10 + k + k')%nat, (length x + n)%nat.
    split; [reflexivity|]. split; [rewrite L, app_length; lia|]. exact (holds_app _ _ _ _ _ _ _ _ _ H H').
Qed.
Lemma packet_held p :
  match packet_to_bytes_compressed c h p with
  | Ok out => exists k, rests (records_of p) = Ok k /\
      length out = (12 + 4 * length (p_questions p) + k + fst (names_size h (packet_names p) []))%nat
  | _ => match rests (records_of p) with Ok _ => False | _ => True end
  end.
Proof.
  unfold packet_to_bytes_compressed.
  destruct (questions_held (p_questions p) (header_to_bytes (p_header p)) []) as (n & L & H).
  destruct (questions_compressed c h (p_questions p) (header_to_bytes (p_header p)) []) as [b m]. cbn [fst snd] in *. rewrite header_length in L.
  pose proof (records_held (records_of p) b m) as R. unfold records_of in R at 1. rewrite records_app in R.
  destruct (records_compressed c h (p_answers p) b m) as [s1| | |]; cbn [rbind] in *; try exact R.
  rewrite records_app in R. destruct (records_compressed c h (p_authorities p) (fst s1) (snd s1)) as [s2| | |]; cbn [rbind] in *; try exact R.
  destruct (records_compressed c h (p_additionals p) (fst s2) (snd s2)) as [s3| | |]; cbn [rbind] in *; try exact R.
  destruct R as (k & n' & D & L' & H'). exists k. split; [exact D|]. rewrite L', L.
  destruct (holds_app _ _ _ _ _ _ _ _ _ H H') as (Q & _). unfold packet_names. lia.
Qed.
End Message.

Lemma rests_perm c a b : Permutation a b -> forall k, rests c a = Ok k -> rests c b = Ok k.
Proof.
  induction 1 as [|r a b P IH|r s a|a b d P1 IH1 P2 IH2]; intros k E; cbn [rests fold_right] in *.
  - exact E.
  - fold (rests c a) in E. fold (rests c b). destruct (data_rest c (rr_data r)); cbn [rbind] in *; try discriminate.
    destruct (rests c a) as [k'| | |]; cbn [rbind] in E; try discriminate. rewrite (IH _ eq_refl). exact E.
  - fold (rests c a) in *. destruct (data_rest c (rr_data r)), (data_rest c (rr_data s)), (rests c a); cbn [rbind] in *; try discriminate.
    rewrite <- E. f_equal. lia.
  - auto.
Qed.
Lemma nodup_perm (a b : list fqdn) : Permutation a b -> Permutation (nodup name_eq_dec a) (nodup name_eq_dec b).
Proof.
  intros P. apply NoDup_Permutation; try apply NoDup_nodup. intros t. rewrite !nodup_In.
  split; apply Permutation_in; [exact P|apply Permutation_sym, P].
Qed.
Lemma flat_map_perm {X Y} (g : X -> list Y) a b : Permutation a b -> Permutation (flat_map g a) (flat_map g b).
Proof.
  induction 1; cbn [flat_map]; [constructor|apply Permutation_app_head; assumption| |eapply Permutation_trans; eassumption].
  rewrite !app_assoc. apply Permutation_app_tail, Permutation_app_comm.
Qed.
Lemma shared_perm a b n : Permutation a b -> shared a n -> shared b n.
Proof.
  intros P. unfold shared, distinct_tails. pose proof (nodup_perm _ _ (flat_map_perm tails_of _ _ P)) as Q.
  rewrite (total_perm is_root _ _ P), (total_perm is_top _ _ Q), (total_perm first_label _ _ Q), (Permutation_length P). auto.
Qed.
Lemma separates_perm h a b : Permutation a b -> hash_separates h a -> hash_separates h b.
Proof.
  intros P HS s t (Ns & f & x & F & Ef) (Nt & g & y & G & Eg) E. apply Permutation_sym in P. apply HS; [| |exact E].
  - split; [exact Ns|]. exists f, x. split; [exact (Permutation_in _ P F)|exact Ef].
  - split; [exact Nt|]. exists g, y. split; [exact (Permutation_in _ P G)|exact Eg].
Qed.
Lemma shared_unique fs n k : shared fs n -> shared fs k -> n = k.
Proof. unfold shared. lia. Qed.

Lemma message_length c h p out : hash_separates h (packet_names p) -> packet_to_bytes_compressed c h p = Ok out ->
  exists k n, rests c (records_of p) = Ok k /\ shared (packet_names p) n /\ length out = (12 + 4 * length (p_questions p) + k + n)%nat.
Proof.
  intros HS E. pose proof (packet_held c h p) as H. rewrite E in H. destruct H as (k & R & L).
  exists k, (fst (names_size h (packet_names p) [])). split; [exact R|]. split; [apply names_shared, HS|exact L].
Qed.
Lemma order_length c h p p' out : hash_separates h (packet_names p) ->
  Permutation (p_questions p) (p_questions p') -> Permutation (records_of p) (records_of p') ->
  packet_to_bytes_compressed c h p = Ok out -> exists out', packet_to_bytes_compressed c h p' = Ok out' /\ length out' = length out.
Proof.
  intros HS PQ PR E. destruct (message_length c h p out HS E) as (k & n & R & S & L).
  assert (PN : Permutation (packet_names p) (packet_names p')).
  { unfold packet_names. apply Permutation_app; [apply Permutation_map, PQ|apply flat_map_perm, PR]. }
  pose proof (packet_held c h p') as H. apply (rests_perm c _ _ PR) in R. rewrite R in H.
  destruct (packet_to_bytes_compressed c h p') as [out'| | |] eqn:E'; try contradiction.
  exists out'. split; [reflexivity|]. destruct (message_length c h p' out' (separates_perm _ _ _ PN HS) E') as (k' & n' & R' & S' & L').
  rewrite R in R'. apply ok_inj in R'. subst k'. pose proof (shared_unique _ _ _ (shared_perm _ _ _ PN S) S'). subst n'.
  rewrite L, L', (Permutation_length PQ). reflexivity.
Qed.

(** The plain form has the same octets besides the names. *)
Lemma plain_app a b : plain_names (a ++ b) = (plain_names a + plain_names b)%nat.
Proof. apply total_app. Qed.
Lemma records_plain c rs bs : concat_res (rr_to_bytes c) rs = Ok bs ->
  exists k, rests c rs = Ok k /\ length bs = (k + plain_names (flat_map rr_names rs))%nat.
Proof.
  revert bs. induction rs as [|r rs IH]; intros bs E; cbn [concat_res rests fold_right flat_map] in *.
  - apply ok_inj in E. subst bs. exists 0%nat. split; reflexivity.
  - apply rbind_ok in E. destruct E as (b & E1 & E). apply rbind_ok in E. destruct E as (bs' & E2 & E). apply ok_inj in E. subst bs.
    unfold rr_to_bytes in E1. apply rbind_ok in E1. destruct E1 as (_ & _ & E1). apply rbind_ok in E1. destruct E1 as (n & _ & E1).
    apply rbind_ok in E1. destruct E1 as (d & D & E1). apply ok_inj in E1. subst b.
    destruct (data_plain c _ _ D) as (k & -> & L). destruct (IH _ E2) as (k' & R & L'). fold (rests c rs). rewrite R. cbn [rbind].
    eexists. split; [reflexivity|]. unfold rr_names at 1. change (rr_name r :: rdata_names (rr_data r)) with ([rr_name r] ++ rdata_names (rr_data r)).
    rewrite !plain_app, !app_length, !be_length. unfold plain_names at 1. cbn [total fold_right]. lia.
Qed.
Lemma rests_app c a b : rests c (a ++ b) = let! x := rests c a in let! y := rests c b in Ok (x + y)%nat.
Proof.
  induction a as [|r a IH]; cbn [app rests fold_right]; fold (rests c b).
  - cbn [rbind]. destruct (rests c b); reflexivity.
  - fold (rests c a). fold (rests c (a ++ b)). rewrite IH. destruct (data_rest c (rr_data r)); cbn [rbind]; try reflexivity.
    destruct (rests c a); cbn [rbind]; try reflexivity. destruct (rests c b); cbn [rbind]; try reflexivity. f_equal. lia.
Qed.
Lemma questions_plain c qs : length (flat_map (question_to_bytes c) qs) = (4 * length qs + plain_names (map q_name qs))%nat.
Proof.
  induction qs as [|q qs IH]; [reflexivity|]. cbn [flat_map map length]. rewrite app_length, IH. unfold question_to_bytes at 1. rewrite !app_length, !be_length.
  unfold plain_names. cbn [total fold_right]. unfold total. lia.
Qed.
Lemma packet_plain c p bs : packet_to_bytes c p = Ok bs ->
  exists k, rests c (records_of p) = Ok k /\ length bs = (12 + 4 * length (p_questions p) + k + plain_names (packet_names p))%nat.
Proof.
  unfold packet_to_bytes. intros E. apply rbind_ok in E. destruct E as (_ & _ & E).
  apply rbind_ok in E. destruct E as (a & A & E). apply rbind_ok in E. destruct E as (n & N & E). apply rbind_ok in E. destruct E as (d & D & E). apply ok_inj in E. subst bs.
  destruct (records_plain c _ _ A) as (ka & Ra & La), (records_plain c _ _ N) as (kn & Rn & Ln), (records_plain c _ _ D) as (kd & Rd & Ld).
  exists (ka + (kn + kd))%nat. unfold records_of. rewrite !rests_app, Ra, Rn, Rd. cbn [rbind]. split; [reflexivity|].
  unfold packet_names, records_of. rewrite !flat_map_app, !plain_app, !app_length, questions_plain, La, Ln, Ld.
  assert (P : length (patched_header p) = 12%nat).
  { unfold patched_header. rewrite !app_length, !be_length, firstn_length, skipn_length, header_length. lia. }
  lia.
Qed.
Lemma saved_length c h p plain out : hash_separates h (packet_names p) -> packet_to_bytes c p = Ok plain -> packet_to_bytes_compressed c h p = Ok out ->
  exists n, shared (packet_names p) n /\ (length out + plain_names (packet_names p) = length plain + n)%nat.
Proof.
  intros HS P E. destruct (packet_plain c p plain P) as (k & R & L). destruct (message_length c h p out HS E) as (k' & n & R' & S & L').
  rewrite R in R'. apply ok_inj in R'. subst k'. exists n. split; [exact S|]. lia.
Qed.

(** ** No way is shorter *)
Lemma total_incl {X} (dec : forall a b : X, {a = b} + {a <> b}) (g : X -> nat) d : NoDup d -> forall t, incl d t -> (total g d <= total g t)%nat.
Proof.
  induction 1 as [|x d NI ND IH]; intros t I; [cbn; lia|].
  destruct (in_split x t (I x (or_introl eq_refl))) as (a & b & ->).
  assert (J : incl d (a ++ b)).
  { intros y Y. specialize (I y (or_intror Y)). apply in_app_iff in I. apply in_app_iff. destruct I as [I|[->|I]]; auto. contradiction. }
  specialize (IH _ J). rewrite total_app in *. unfold total in *. cbn [fold_right]. lia.
Qed.
Lemma tails_longer a t : tails_of (a ++ t) = longer a t ++ tails_of t.
Proof. induction a as [|l a IH]; cbn [app tails_of longer]; [reflexivity|]. f_equal. exact IH. Qed.
Lemma tops_in_full f : (is_root f + total is_top (tails_of f) = 1)%nat.
Proof.
  induction f as [|l f IH]; [reflexivity|]. cbn [tails_of is_root]. unfold total in *. cbn [fold_right].
  destruct f as [|k f]; [reflexivity|]. cbn [is_top]. cbn [is_root] in IH. exact IH.
Qed.
Lemma tops_longer a t : t <> [] -> total is_top (longer a t) = 0%nat.
Proof.
  intros N. induction a as [|l a IH]; [reflexivity|]. cbn [longer]. unfold total in *. cbn [fold_right]. rewrite IH.
  destruct a as [|k a]; [destruct t; [contradiction|reflexivity]|reflexivity].
Qed.
Definition closed (S' : list fqdn) : Prop := (forall t u, In t S' -> In u (tails_of t) -> In u S') /\ ~ In [] S'.
Lemma tails_nonempty f : ~ In [] (tails_of f).
Proof. induction f as [|l f IH]; [auto|]. intros [E|I]; [discriminate|auto]. Qed.
Lemma ways_spell S' fs n : ways S' fs n -> closed S' -> exists T, incl (flat_map tails_of fs) (T ++ S') /\
  (n + total is_root fs + total is_top T = total first_label T + 2 * length fs)%nat.
Proof.
  induction 1 as [S'|S' f fs n W IH|S' a t fs n It W IH]; intros (C & NE).
  - exists []. split; [intros x []|reflexivity].
  - destruct IH as (T & I & Q).
    { split.
      - intros t u J K. apply in_app_iff in J. apply in_app_iff. destruct J as [J|J]; [left; eapply tails_closed; eassumption|right; eapply C; eassumption].
      - intros J. apply in_app_iff in J. destruct J as [J|J]; [exact (tails_nonempty f J)|exact (NE J)]. }
    exists (T ++ tails_of f). rewrite <- app_assoc. split.
    + intros x X. cbn [flat_map] in X. apply in_app_iff in X. destruct X as [X|X]; [apply in_app_iff; right; apply in_app_iff; left; exact X|exact (I x X)].
    + pose proof (tops_in_full f). rewrite !total_app. unfold total in *. cbn [fold_right length]. lia.
  - assert (Nt : t <> []) by (intros ->; exact (NE It)).
    destruct IH as (T & I & Q).
    { split.
      - intros x u J K. apply in_app_iff in J. apply in_app_iff. destruct J as [J|J]; [|right; eapply C; eassumption].
        assert (J' : In u (tails_of (a ++ t))) by (eapply tails_closed; [rewrite tails_longer; apply in_app_iff; left; exact J|exact K]).
        rewrite tails_longer in J'. apply in_app_iff in J'. destruct J' as [J'|J']; [left; exact J'|right; eapply C; eassumption].
      - intros J. apply in_app_iff in J. destruct J as [J|J]; [|exact (NE J)].
        apply (tails_nonempty (a ++ t)). rewrite tails_longer. apply in_app_iff. left. exact J. }
    exists (T ++ longer a t). rewrite <- app_assoc. split.
    + intros x X. cbn [flat_map] in X. rewrite tails_longer in X. apply in_app_iff in X. destruct X as [X|X]; [|exact (I x X)].
      apply in_app_iff. right. apply in_app_iff in X. apply in_app_iff. destruct X as [X|X]; [left; exact X|right; eapply C; eassumption].
    + pose proof (tops_longer a t Nt). assert (is_root (a ++ t) = 0%nat) by (destruct a, t; try contradiction; reflexivity).
      rewrite !total_app. unfold total in *. cbn [fold_right length]. lia.
Qed.
Lemma ways_least fs n k : ways [] fs n -> shared fs k -> (k <= n)%nat.
Proof.
  intros W S. destruct (ways_spell [] fs n W) as (T & I & Q); [split; [intros t u []|intros []]|]. rewrite app_nil_r in I. unfold shared in S.
  assert (J : incl (distinct_tails fs) T) by (intros x X; apply I; apply nodup_In in X; exact X).
  pose proof (total_incl name_eq_dec (fun t => first_label t - is_top t)%nat _ (NoDup_nodup name_eq_dec (flat_map tails_of fs)) _ J) as L.
  assert (G : forall l, (total (fun t => first_label t - is_top t) l + total is_top l = total first_label l)%nat).
  { induction l as [|t l IHl]; [reflexivity|]. unfold total in *. cbn [fold_right].
    assert (is_top t <= first_label t)%nat by (destruct t as [|x [|y t]]; cbn [is_top first_label]; lia). lia. }
  pose proof (G (distinct_tails fs)). pose proof (G T). fold (distinct_tails fs) in L. lia.
Qed.
(** And one way takes exactly as many. *)
Lemma tails_shorter f t : In t (tails_of f) -> (length t <= length f)%nat.
Proof. induction f as [|l f IH]; [intros []|]. intros [<-|I]; [apply le_n|exact (le_S _ _ (IH I))]. Qed.
Lemma tails_nodup f : NoDup (tails_of f).
Proof.
  induction f as [|l f IH]; [constructor|]. cbn [tails_of]. constructor; [|exact IH].
  intros I. apply tails_shorter in I. exact (Nat.nle_succ_diag_l _ I).
Qed.
Lemma cut_at S' f : (forall t, In t (tails_of f) -> ~ In t S') \/
  exists a t, f = a ++ t /\ In t S' /\ forall u, In u (longer a t) -> ~ In u S'.
Proof.
  induction f as [|l f IH]; [left; intros t []|].
  destruct (in_dec name_eq_dec (l :: f) S') as [I|NI].
  - right. exists [], (l :: f). split; [reflexivity|]. split; [exact I|intros u []].
  - destruct IH as [H|(a & t & -> & I & H)].
    + left. intros t [<-|J]; auto.
    + right. exists (l :: a), t. split; [reflexivity|]. split; [exact I|]. intros u [<-|J]; auto.
Qed.
Lemma nodup_join (a b : list fqdn) : NoDup a -> NoDup b -> (forall t, In t a -> ~ In t b) -> NoDup (a ++ b).
Proof.
  induction 1 as [|x a NI ND IH]; intros B H; [exact B|]. cbn [app]. constructor.
  - intros I. apply in_app_iff in I. destruct I as [I|I]; [auto|]. exact (H x (or_introl eq_refl) I).
  - apply IH; [exact B|]. intros t I. apply H. right. exact I.
Qed.
Lemma ways_best fs : forall S', closed S' -> NoDup S' -> exists n T, ways S' fs n /\ NoDup (T ++ S') /\
  (forall t, In t (T ++ S') <-> In t S' \/ In t (flat_map tails_of fs)) /\
  (n + total is_root fs + total is_top T = total first_label T + 2 * length fs)%nat.
Proof.
  induction fs as [|f fs IH]; intros S' C ND.
  - exists 0%nat, []. split; [constructor|]. split; [exact ND|]. split; [cbn; tauto|reflexivity].
  - pose proof C as (C1 & NE). destruct (cut_at S' f) as [H|(a & t & -> & It & H)].
    + destruct (IH (tails_of f ++ S')) as (n & T & W & D & E & Q).
      { split.
        - intros t u J K. apply in_app_iff in J. apply in_app_iff. destruct J as [J|J]; [left; eapply tails_closed; eassumption|right; eapply C1; eassumption].
        - intros J. apply in_app_iff in J. destruct J as [J|J]; [exact (tails_nonempty f J)|exact (NE J)]. }
      { apply nodup_join; [apply tails_nodup|exact ND|exact H]. }
      exists (total first_label (tails_of f) + 1 + n)%nat, (T ++ tails_of f). rewrite <- app_assoc. split; [constructor; exact W|]. split; [exact D|]. split.
      * intros t. rewrite E. cbn [flat_map]. rewrite !in_app_iff. tauto.
      * pose proof (tops_in_full f). rewrite !total_app. unfold total in *. cbn [fold_right length]. lia.
    + assert (Nt : t <> []) by (intros ->; exact (NE It)). pose proof (tails_nodup (a ++ t)) as TN. rewrite tails_longer in TN.
      destruct (IH (longer a t ++ S')) as (n & T & W & D & E & Q).
      { split.
        - intros x u J K. apply in_app_iff in J. apply in_app_iff. destruct J as [J|J]; [|right; eapply C1; eassumption].
          assert (J' : In u (tails_of (a ++ t))) by (eapply tails_closed; [rewrite tails_longer; apply in_app_iff; left; exact J|exact K]).
          rewrite tails_longer in J'. apply in_app_iff in J'. destruct J' as [J'|J']; [left; exact J'|right; eapply C1; eassumption].
        - intros J. apply in_app_iff in J. destruct J as [J|J]; [|exact (NE J)].
          apply (tails_nonempty (a ++ t)). rewrite tails_longer. apply in_app_iff. left. exact J. }
      { apply nodup_join; [|exact ND|exact H]. clear -TN. induction (longer a t) as [|x l IHl]; [constructor|].
        cbn [app] in TN. inversion TN; subst. constructor; [intros I; apply H1; apply in_app_iff; left; exact I|auto]. }
      exists (total first_label (longer a t) + 2 + n)%nat, (T ++ longer a t). rewrite <- app_assoc. split; [constructor; assumption|]. split; [exact D|]. split.
      * intros x. rewrite E. cbn [flat_map]. rewrite tails_longer, !in_app_iff. pose proof (C1 t x It). tauto.
      * pose proof (tops_longer a t Nt). assert (is_root (a ++ t) = 0%nat) by (destruct a, t; try contradiction; reflexivity).
        rewrite !total_app. unfold total in *. cbn [fold_right length]. lia.
Qed.
Lemma ways_shared fs n : shared fs n -> ways [] fs n.
Proof.
  intros S. destruct (ways_best fs []) as (k & T & W & D & E & Q); [split; [intros t u []|intros []]|constructor|].
  rewrite app_nil_r in D, E.
  assert (P : Permutation T (nodup name_eq_dec (flat_map tails_of fs))).
  { apply NoDup_Permutation; [exact D|apply NoDup_nodup|]. intros t. rewrite E, nodup_In. cbn. tauto. }
  assert (K : shared fs k).
  { unfold shared, distinct_tails. rewrite <- (total_perm is_top _ _ P), <- (total_perm first_label _ _ P). exact Q. }
  rewrite (shared_unique _ _ _ S K). exact W.
Qed.
