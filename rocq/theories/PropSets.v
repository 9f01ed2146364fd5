(** * Property C91: sets of types, keys and parameters *)
From Coq Require Import Sorting.Permutation Sorting.Sorted Lia ZifyBool ZifyNat ZifyN.
From Verif Require Import Base Buffer Fqdn Types Bitmap Svcb RDataSec RData Packet Api Construct Sets BaseFacts BitmapFacts
  FieldSpec FieldFacts ObjectSpec PropRecord.

(** A set [s] filled with [l], in one way or the other. *)
Definition filled {X} (key : X -> N) (l s : list X) : Prop := s = inserted key l \/ s = collected key l.
Lemma collected_fold {X} (key : X -> N) l : collected key l = inserted key (rev l).
Proof. unfold collected, inserted. rewrite <- fold_left_rev_right, rev_involutive. reflexivity. Qed.
Lemma last_first {X} (key : X -> N) l x : first_of key (rev l) x <-> last_of key l x.
Proof.
  split.
  - intros (a & b & E & F). apply (f_equal (@rev X)) in E. rewrite rev_involutive, rev_app_distr in E. cbn [rev] in E. rewrite <- app_assoc in E.
    exists (rev b), (rev a). split; [exact E|]. rewrite Forall_forall in *. intros y I. apply F. apply in_rev. exact I.
  - intros (a & b & -> & F). exists (rev b), (rev a). split; [rewrite rev_app_distr; cbn [rev]; rewrite <- app_assoc; reflexivity|].
    rewrite Forall_forall in *. intros y I. apply F. apply in_rev. exact I.
Qed.
Lemma filled_members {X} (key : X -> N) l s : (forall a b, In a l -> In b l -> key a = key b -> a = b) -> filled key l s ->
  sorted_by key s /\ forall x, In x s <-> In x l.
Proof.
  intros J [->| ->].
  - destruct (set_fold key l) as (S & I). split; [exact S|]. intros x. rewrite I. apply first_of_self, J.
  - rewrite collected_fold. destruct (set_fold key (rev l)) as (S & I). split; [exact S|]. intros x. rewrite I.
    rewrite first_of_self; [symmetry; apply in_rev|]. intros a b Ia Ib. apply J; apply in_rev; assumption.
Qed.
Lemma set_insert_keys {X} (key : X -> N) x s : map key (set_insert key x s) = set_insert (fun n => n) (key x) (map key s).
Proof. induction s as [|y s IH]; [reflexivity|]. cbn [set_insert map]. destruct (key x <? key y); [reflexivity|]. destruct (key x =? key y); [reflexivity|]. cbn [map]. rewrite IH. reflexivity. Qed.
Lemma inserted_keys {X} (key : X -> N) l : map key (inserted key l) = inserted (fun n => n) (map key l).
Proof.
  unfold inserted. change (@nil N) with (map key []). generalize (@nil X) as s. induction l as [|x l IH]; intros s; [reflexivity|].
  cbn [fold_left map]. rewrite IH, set_insert_keys. reflexivity.
Qed.
Lemma filled_keys {X} (key : X -> N) l s : filled key l s -> filled (fun n => n) (map key l) (map key s).
Proof.
  intros [->| ->]; [left; apply inserted_keys|right]. rewrite !collected_fold, inserted_keys, map_rev. reflexivity.
Qed.
Lemma filled_same {X} (key : X -> N) l l' s s' : (forall a b, In a l -> In b l -> key a = key b -> a = b) ->
  (forall x, In x l <-> In x l') -> filled key l s -> filled key l' s' -> s = s'.
Proof.
  intros J M F F'. destruct (filled_members key l s J F) as (S & I).
  destruct (filled_members key l' s') as (S' & I'); [intros a b Ia Ib; apply J; apply M; assumption|exact F'|].
  apply (sorted_ext key); [exact S|exact S'|]. intros x. rewrite I, I'. apply M.
Qed.

(** ** Types.  Sorting by the derived order is sorting by the numbers on the wire. *)
Theorem C91_type_order : forall a b : rtype, rtype_cmp a b = (rtype_code a ?= rtype_code b) /\ rtype_disc a = rtype_code a.
Proof. intros a b. assert (E : forall t, rtype_disc t = rtype_code t) by (intros []; reflexivity). unfold rtype_cmp. rewrite !E. auto. Qed.
(** A set of types has the types it was filled with, in increasing order of their numbers. *)
Theorem C91_type_set : forall (l s : list rtype), filled rtype_disc l s ->
  StronglySorted (fun a b => rtype_cmp a b = Lt) s /\ forall t, In t s <-> In t l.
Proof.
  intros l s F. destruct (filled_members rtype_disc l s) as (S & I); [|exact F|].
  - intros a b _ _ E. apply rtype_code_inj. destruct (C91_type_order a b) as (_ & Ea), (C91_type_order b a) as (_ & Eb). congruence.
  - split; [|exact I]. clear - S. induction s as [|x s IH]; [constructor|]. destruct S as [F S]. constructor; [apply IH, S|].
    eapply Forall_impl; [|exact F]. intros y Y. apply N.compare_lt_iff. exact Y.
Qed.
(** So the octets of an NSEC or CSYNC record show which types were put in, not how. *)
Theorem C91_types : forall (c : cfg) (next : fqdn) (serial : N) (fl : csync_flags) (l l' s s' : list rtype),
  (forall t, In t l <-> In t l') -> filled rtype_disc l s -> filled rtype_disc l' s' ->
  rdata_to_bytes c (DNSEC (nsec_with_types next s)) = rdata_to_bytes c (DNSEC (nsec_with_types next s')) /\
  rdata_to_bytes c (DCSYNC (csync_new serial fl s)) = rdata_to_bytes c (DCSYNC (csync_new serial fl s')).
Proof.
  intros c next serial fl l l' s s' M F F'. assert (s = s') as ->; [|auto]. apply (filled_same rtype_disc l l'); [|exact M|exact F|exact F'].
  intros a b _ _ E. apply rtype_code_inj. destruct (C91_type_order a b) as (_ & Ea), (C91_type_order b a) as (_ & Eb). congruence.
Qed.
(** Classes do not sort by their numbers, and classes with the same number are different. *)
Theorem C91_class_refuted : (exists a b : rclass, rclass_cmp a b = Lt /\ rclass_code b < rclass_code a) /\
  exists a b : rclass, rclass_cmp a b = Lt /\ rclass_code a = rclass_code b.
Proof. split; [exists CIN, (UdpPayloadSize 0)|exists CIN, (UdpPayloadSize 1)]; split; reflexivity. Qed.
(** The classes that are read from messages do. *)
Theorem C91_class_partial : ord_contract (fun _ => True) rclass_cmp /\
  forall n m : N, n < 32768 -> m < 32768 -> n <> 0 -> m <> 0 -> rclass_cmp (rclass_from n) (rclass_from m) = (n ?= m).
Proof.
  split.
  - split; [|split].
    + intros a b _ _. destruct a, b; cbn; split; intros E; try reflexivity; try discriminate E; [apply N.compare_eq_iff in E; congruence|injection E as ->; apply N.compare_refl].
    + intros a b. destruct a, b; try reflexivity. apply N.compare_antisym.
    + intros a b d. destruct a as [| | | |n], b as [| | | |m], d as [| | | |k]; cbn [rclass_cmp rclass_disc]; intros E1 E2; try reflexivity; try discriminate E1; try discriminate E2.
      rewrite N.compare_lt_iff in *. lia.
  - assert (K : forall n, n < 32768 -> n <> 0 -> rclass_code (rclass_from n) = n /\ match rclass_from n with UdpPayloadSize k => 4 < k | _ => True end).
    { intros n B Z. unfold rclass_from. change 32767 with (N.ones 15). rewrite N.land_ones, N.mod_small by exact B. cbn [assoc].
      destruct (N.eqb_spec n 1); [subst; split; reflexivity|]. destruct (N.eqb_spec n 2); [subst; split; reflexivity|].
      destruct (N.eqb_spec n 3); [subst; split; reflexivity|]. destruct (N.eqb_spec n 4); [subst; split; reflexivity|]. cbn. split; [reflexivity|lia]. }
    assert (J : forall a b, match a with UdpPayloadSize k => 4 < k | _ => True end -> match b with UdpPayloadSize k => 4 < k | _ => True end ->
      rclass_cmp a b = (rclass_code a ?= rclass_code b)).
    { intros a b Ha Hb. destruct a as [| | | |n], b as [| | | |m]; try reflexivity; cbn [rclass_cmp rclass_code rclass_disc]; symmetry;
        first [apply N.compare_lt_iff; lia|apply N.compare_gt_iff; lia]. }
    intros n m Bn Bm Zn Zm. destruct (K n Bn Zn) as (En & Hn), (K m Bm Zm) as (Em & Hm). rewrite (J _ _ Hn Hm), En, Em. reflexivity.
Qed.

(** ** Keys of the mandatory parameter: the octets show which numbers were put in. *)
Theorem C91_keys : forall (c : cfg) (l l' s s' : list pkey), (forall n, In n (map pkey_code l) <-> In n (map pkey_code l')) ->
  filled pkey_code l s -> filled pkey_code l' s' -> param_to_bytes c (PMandatory s) = param_to_bytes c (PMandatory s').
Proof.
  intros c l l' s s' M F F'. assert (E : map pkey_code s = map pkey_code s').
  { apply (filled_same (fun n => n) (map pkey_code l) (map pkey_code l')); [intros a b _ _ E; exact E|exact M|apply filled_keys, F|apply filled_keys, F']. }
  assert (V : forall k : list pkey, param_value_bytes (PMandatory k) = flat_map (be 2) (map pkey_code k)).
  { intros k. cbn [param_value_bytes]. induction k as [|x k IH]; [reflexivity|]. cbn [flat_map map]. rewrite IH. reflexivity. }
  unfold param_to_bytes. rewrite !V, E. unfold param_byte_size. rewrite <- (map_length pkey_code s), E, map_length. reflexivity.
Qed.

(** ** Parameters: false.  Which of two with the same key is kept depends on the order, *)
Theorem C91_params_refuted : forall c : cfg, exists (l l' : list param) (b b' : bytes), Permutation l l' /\
  rdata_to_bytes c (DSVCB (mkSvcb 1 [] (inserted param_code l))) = Ok b /\
  rdata_to_bytes c (DSVCB (mkSvcb 1 [] (inserted param_code l'))) = Ok b' /\ b <> b'.
Proof.
  intros c. exists [PPort 80; PPort 443], [PPort 443; PPort 80]. eexists. eexists. split; [apply perm_swap|].
  split; [cbn; reflexivity|]. split; [cbn; reflexivity|]. discriminate.
Qed.
(** and on the way the set is filled. *)
Theorem C91_ways_refuted : forall c : cfg, exists (l : list param) (b b' : bytes),
  rdata_to_bytes c (DSVCB (mkSvcb 1 [] (inserted param_code l))) = Ok b /\
  rdata_to_bytes c (DSVCB (mkSvcb 1 [] (collected param_code l))) = Ok b' /\ b <> b'.
Proof.
  intros c. exists [PPort 80; PPort 443]. eexists. eexists. split; [cbn; reflexivity|]. split; [cbn; reflexivity|]. discriminate.
Qed.
(** Exactly: the first of those with a key stays when they are inserted, the last when they are collected. *)
Theorem C91_kept_partial : forall (l : list param) (p : param),
  (In p (inserted param_code l) <-> first_of param_code l p) /\ (In p (collected param_code l) <-> last_of param_code l p).
Proof.
  intros l p. split; [apply (set_fold param_code l)|]. rewrite collected_fold, <- last_first. apply (set_fold param_code (rev l)).
Qed.
(** With one parameter for each key the order and the way do not show. *)
Theorem C91_params_partial : forall (c : cfg) (prio : N) (target : fqdn) (l l' s s' : list param),
  NoDup (map param_code l) -> Permutation l l' -> filled param_code l s -> filled param_code l' s' ->
  rdata_to_bytes c (DSVCB (mkSvcb prio target s)) = rdata_to_bytes c (DSVCB (mkSvcb prio target s')).
Proof.
  intros c prio target l l' s s' ND Pm F F'. assert (s = s') as ->; [|reflexivity]. apply (filled_same param_code l l'); [|intros x; split; apply Permutation_in; [|symmetry]; exact Pm|exact F|exact F'].
  clear - ND. induction l as [|x l IH]; intros a b Ia Ib E; [destruct Ia|]. cbn [map] in ND. inversion ND as [|? ? NI ND']; subst.
  destruct Ia as [->|Ia], Ib as [->|Ib].
  - reflexivity.
  - exfalso. apply NI. rewrite E. apply in_map. exact Ib.
  - exfalso. apply NI. rewrite <- E. apply in_map. exact Ia.
  - apply IH; assumption.
Qed.
Example C91_ex : inserted rtype_disc [TXT; A; NSEC; A] = [A; TXT; NSEC] /\ collected rtype_disc [NSEC; A; TXT] = [A; TXT; NSEC] /\
  rdata_to_bytes ex_cfg (DNSEC (nsec_with_types [] (inserted rtype_disc [TXT; A; NSEC; A]))) = Ok [0; 0; 6; 64; 0; 128; 0; 0; 1] /\
  NoDup (map param_code [PPort 443; PNoDefaultAlpn]) /\ inserted param_code [PPort 443; PNoDefaultAlpn] = [PNoDefaultAlpn; PPort 443].
Proof.
  split; [reflexivity|]. split; [reflexivity|]. split; [vm_compute; reflexivity|]. split; [|reflexivity].
  repeat constructor; cbn; intuition discriminate.
Qed.
Print Assumptions C91_type_order.
Print Assumptions C91_type_set.
Print Assumptions C91_types.
Print Assumptions C91_class_refuted.
Print Assumptions C91_class_partial.
Print Assumptions C91_keys.
Print Assumptions C91_params_refuted.
Print Assumptions C91_ways_refuted.
Print Assumptions C91_kept_partial.
Print Assumptions C91_params_partial.
