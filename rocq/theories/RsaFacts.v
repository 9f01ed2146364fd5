(** * RSA: Fermat's theorem, and that the private exponent undoes the public one *)
From Coq Require Import ZArith Znumtheory Permutation Lia ZifyBool ZifyNat ZifyN.
From Verif Require Import Base BaseFacts Dnssec DnssecSpec Rsa.

Lemma mod_pow_eq b e n : n <> 0 -> mod_pow b e n = b ^ e mod n.
Proof.
  intros NZ. destruct e as [|e]; [reflexivity|]. cbn [mod_pow].
  assert (D : forall p, b ^ N.pos p~0 = b ^ N.pos p * b ^ N.pos p) by (intros p; rewrite <- N.pow_add_r; f_equal; lia).
  induction e as [e IH|e IH|]; cbn [mod_pow_pos].
  - rewrite IH. replace (N.pos e~1) with (N.succ (N.pos e~0)) by lia. rewrite N.pow_succ_r', D.
    rewrite <- N.mul_mod by exact NZ. rewrite N.mul_mod_idemp_l by exact NZ. f_equal. lia.
  - rewrite IH, D. rewrite <- N.mul_mod by exact NZ. reflexivity.
  - rewrite N.pow_1_r. reflexivity.
Qed.

Open Scope Z_scope.
(** ** Fermat: [a ^ (p - 1) = 1] modulo a prime *)
Definition product (l : list Z) : Z := fold_right Z.mul 1 l.
Lemma product_perm a b : Permutation a b -> product a = product b.
Proof. induction 1; cbn [product fold_right] in *; fold (product) in *; unfold product in *; cbn [fold_right] in *; lia. Qed.
Lemma product_map a p l : p <> 0 -> (product (map (fun x => (a * x) mod p) l)) mod p = (a ^ Z.of_nat (length l) * product l) mod p.
Proof.
  intros NZ. induction l as [|x l IH]; [reflexivity|]. cbn [map length]. unfold product in *. cbn [fold_right].
  rewrite Z.mul_mod, IH, Z.mod_mod, <- Z.mul_mod by exact NZ. f_equal. rewrite Nat2Z.inj_succ, Z.pow_succ_r by lia. lia.
Qed.
Lemma product_prime p l : prime p -> (forall x, In x l -> ~ (p | x)) -> ~ (p | product l).
Proof.
  intros P H D. induction l as [|x l IH].
  - unfold product in D. cbn in D. apply Z.divide_1_r in D. destruct P as [P1 _]. lia.
  - unfold product in D. cbn [fold_right] in D. apply prime_mult in D; [|exact P]. destruct D as [D|D]; [apply (H x); [left; reflexivity|exact D]|].
    apply IH; [|exact D]. intros y I. apply H. right. exact I.
Qed.
Lemma fermat p a : prime p -> ~ (p | a) -> (a ^ (p - 1)) mod p = 1.
Proof.
  intros P NA. assert (P1 : 1 < p) by (destruct P; assumption).
  set (l := map Z.of_nat (seq 1 (Z.to_nat (p - 1)))).
  assert (L : forall x, In x l <-> 1 <= x < p).
  { intros x. unfold l. rewrite in_map_iff. split.
    - intros (k & <- & I). apply in_seq in I. lia.
    - intros R. exists (Z.to_nat x). split; [lia|]. apply in_seq. lia. }
  assert (LD : forall x, In x l -> ~ (p | x)).
  { intros x I D. apply L in I. apply Z.divide_pos_le in D; lia. }
  assert (ND : NoDup l) by (apply FinFun.Injective_map_NoDup; [intros u v E; lia|apply seq_NoDup]).
  assert (Len : Z.of_nat (length l) = p - 1) by (unfold l; rewrite map_length, seq_length; lia).
  set (f := fun x => (a * x) mod p).
  assert (Pm : Permutation (map f l) l).
  { apply NoDup_Permutation_bis.
    - clear Len. assert (ND' := ND). assert (S : incl l l) by (intros x I; exact I). revert ND' S. generalize l at 1 2 4. intros k. induction k as [|x k IH]; intros N1 S; [constructor|].
      inversion N1 as [|? ? NI N2]; subst. cbn [map]. constructor.
      + intros I. apply in_map_iff in I. destruct I as (y & E & I). unfold f in E.
        assert (D : (p | a * (y - x))).
        { apply Z.mod_divide; [lia|]. rewrite Z.mul_sub_distr_l, Zminus_mod, E, Z.sub_diag. apply Z.mod_0_l. lia. }
        apply prime_mult in D; [|exact P]. destruct D as [D|D]; [contradiction|].
        assert (x <> y) by (intros ->; contradiction). assert (Ix := proj1 (L x) (S x (or_introl eq_refl))). assert (Iy := proj1 (L y) (S y (or_intror I))).
        destruct D as (z & D). assert (z = 0) by nia. lia.
      + apply IH; [exact N2|]. intros y I. apply S. right. exact I.
    - rewrite map_length. lia.
    - intros y I. apply in_map_iff in I. destruct I as (x & <- & I). apply L. unfold f.
      pose proof (Z.mod_pos_bound (a * x) p ltac:(lia)). assert ((a * x) mod p <> 0); [|lia].
      intros E. apply Z.mod_divide in E; [|lia]. apply prime_mult in E; [|exact P]. destruct E as [E|E]; [contradiction|apply (LD x I E)]. }
  pose proof (product_map a p l ltac:(lia)) as M. fold f in M. rewrite (product_perm _ _ Pm), Len in M.
  assert (D : (p | product l * (a ^ (p - 1) - 1))).
  { apply Z.mod_divide; [lia|]. rewrite Z.mul_sub_distr_l, Z.mul_1_r, Zminus_mod, M, (Z.mul_comm (product l)), Z.sub_diag. apply Z.mod_0_l. lia. }
  apply prime_mult in D; [|exact P]. destruct D as [D|D]; [destruct (product_prime p l P LD D)|].
  destruct D as (z & D). replace (a ^ (p - 1)) with (1 + z * p) by lia. rewrite Z.mod_add by lia. apply Z.mod_1_l. exact P1.
Qed.
(** [x ^ k = x] modulo [p] when [k] is one more than a multiple of [p - 1]. *)
Lemma power_back p k x : prime p -> 0 < k -> k mod (p - 1) = 1 mod (p - 1) -> (p | x ^ k - x).
Proof.
  intros P K E. assert (P1 : 1 < p) by (destruct P; assumption). destruct (Zdivide_dec p x) as [D|ND].
  - apply Z.divide_sub_r; [|exact D]. replace k with (Z.succ (k - 1)) by lia. rewrite Z.pow_succ_r by lia. apply Z.divide_mul_l. exact D.
  - assert (J : exists j, 0 <= j /\ k = 1 + (p - 1) * j).
    { assert (D : (p - 1 | k - 1)).
      { apply Z.mod_divide; [lia|]. rewrite Zminus_mod, E, Z.sub_diag. apply Z.mod_0_l. lia. }
      destruct D as (j & D). exists j. split; nia. }
    destruct J as (j & Hj & ->). rewrite Z.pow_add_r, Z.pow_1_r, Z.pow_mul_r by nia.
    apply Z.mod_divide; [lia|].
    assert (F : ((x ^ (p - 1)) ^ j) mod p = 1).
    { clear K E. pattern j. apply natlike_ind; [apply Z.mod_1_l; exact P1| |exact Hj]. intros i Hi IH. rewrite Z.pow_succ_r by exact Hi.
      rewrite Z.mul_mod, IH, (fermat p x P ND), Z.mul_1_l by lia. apply Z.mod_1_l. exact P1. }
    rewrite Zminus_mod, Z.mul_mod, F, Z.mul_1_r, Z.mod_mod, Z.sub_diag by lia. apply Z.mod_0_l. lia.
Qed.
(** All prime factors together, when they are different. *)
Lemma all_divide l z : Forall prime l -> NoDup l -> (forall p, In p l -> (p | z)) -> (product l | z).
Proof.
  intros F ND H. induction l as [|p l IH]; [apply Z.divide_1_l|]. inversion F as [|? ? P F']; subst. inversion ND as [|? ? NI ND']; subst.
  unfold product. cbn [fold_right]. fold (product l).
  assert (D : (product l | z)) by (apply IH; [exact F'|exact ND'|intros r I; apply H; right; exact I]).
  destruct D as (u & ->). assert (Dp : (p | u * product l)) by (apply H; left; reflexivity). apply prime_mult in Dp; [|exact P]. destruct Dp as [(v & ->)|Dp].
  - exists v. lia.
  - exfalso. revert Dp. apply product_prime; [exact P|]. intros r I D. rewrite Forall_forall in F'. assert (p = r) by (apply prime_div_prime; auto). subst r. contradiction.
Qed.
Lemma rsa_back l k x : Forall prime l -> NoDup l -> 0 < k -> (forall p, In p l -> k mod (p - 1) = 1 mod (p - 1)) ->
  0 <= x < product l -> (x ^ k) mod product l = x.
Proof.
  intros F ND K E X. assert (D : (product l | x ^ k - x)).
  { apply all_divide; [exact F|exact ND|]. intros p I. apply power_back; [rewrite Forall_forall in F; apply F, I|exact K|apply E, I]. }
  destruct D as (z & D). replace (x ^ k) with (x + z * product l) by lia. rewrite Z.mod_add by lia. apply Z.mod_small. exact X.
Qed.
(** Primes by trial. *)
Definition trial (p : Z) : bool := (1 <? p) && forallb (fun k => negb (p mod Z.of_nat k =? 0)) (seq 2 (Z.to_nat (Z.sqrt p) - 1)).
Lemma trial_prime p : trial p = true -> prime p.
Proof.
  unfold trial. intros H. apply andb_prop in H. destruct H as (P1 & H). rewrite forallb_forall in H. pose proof (Z.sqrt_spec p ltac:(lia)) as Q. cbv zeta in Q. set (r := Z.sqrt p) in *.
  assert (Z0 : 0 <= r) by apply Z.sqrt_nonneg. assert (K : forall n, 1 < n <= r -> ~ (n | p)).
  { intros n R D. specialize (H (Z.to_nat n)). rewrite in_seq in H. specialize (H ltac:(lia)). rewrite Z2Nat.id in H by lia. apply Z.mod_divide in D; [|lia]. rewrite D in H. discriminate H. }
  apply prime_alt. split; [lia|]. intros n R D. destruct (Z_le_gt_dec n r) as [Le|Gt]; [apply (K n ltac:(lia) D)|].
  destruct D as (m & E). apply (K m); [|exists n; lia]. split; nia.
Qed.
Close Scope Z_scope.

(** ** Octets of the modulus *)
Lemma octet_size_bound n : n < 256 ^ N.of_nat (octet_size n).
Proof.
  change 256 with (2 ^ 8). rewrite <- N.pow_mul_r. destruct (N.eq_dec n 0) as [->|NZ]; [pose proof (N.pow_nonzero 2 (8 * N.of_nat (octet_size 0)) ltac:(discriminate)); lia|].
  apply N.log2_lt_pow2; [lia|]. unfold octet_size. pose proof (N.div_mod (N.log2 n) 8 ltac:(discriminate)). pose proof (N.mod_lt (N.log2 n) 8 ltac:(discriminate)). lia.
Qed.
Lemma octet_size_min n : n <> 0 -> 256 ^ N.of_nat (octet_size n - 1) <= n.
Proof.
  intros NZ. change 256 with (2 ^ 8). rewrite <- N.pow_mul_r. apply N.log2_le_pow2; [lia|]. unfold octet_size.
  pose proof (N.div_mod (N.log2 n) 8 ltac:(discriminate)). lia.
Qed.
Lemma encoded_iff k t em : encoded k t = Some em <-> (length t + 11 <= k)%nat /\ em = 0 :: 1 :: repeat 255 (k - length t - 3) ++ 0 :: t.
Proof. unfold encoded. destruct (Nat.ltb_spec k (length t + 11)); split; intros H'; [discriminate H'|lia|injection H' as <-; split; [lia|reflexivity]|destruct H' as (_ & ->); reflexivity]. Qed.
Lemma encoded_length k t em : encoded k t = Some em -> length em = k.
Proof. intros H. apply encoded_iff in H. destruct H as (L & ->). cbn [length]. rewrite app_length, repeat_length. cbn [length]. lia. Qed.
Lemma encoded_bytes k t em : byte_list t -> encoded k t = Some em -> byte_list em.
Proof.
  intros B H. apply encoded_iff in H. destruct H as (_ & ->). constructor; [reflexivity|]. constructor; [reflexivity|]. apply Forall_app. split.
  - clear. induction (k - length t - 3)%nat as [|j IH]; constructor; [reflexivity|exact IH].
  - constructor; [reflexivity|exact B].
Qed.
Lemma unbe_zero l : unbe (0 :: l) = unbe l.
Proof. reflexivity. Qed.
Lemma encoded_small n t em : n <> 0 -> byte_list t -> encoded (octet_size n) t = Some em -> unbe em < n.
Proof.
  intros NZ B H. pose proof (encoded_length _ _ _ H) as L. pose proof (encoded_bytes _ _ _ B H) as Bm. apply encoded_iff in H. destruct H as (_ & E).
  destruct em as [|z em']; [discriminate E|]. assert (z = 0) by congruence. subst z. rewrite unbe_zero. inversion Bm as [|? ? _ Bm']; subst.
  pose proof (unbe_bound em' Bm') as U. pose proof (octet_size_min n NZ) as M. cbn [length] in L. replace (octet_size n - 1)%nat with (length em') in M by lia. lia.
Qed.
