(** * Property C94: RSA signatures, with RSA as RFC 8017 defines it *)
From Coq Require Import ZArith Znumtheory Lia ZifyBool ZifyNat ZifyN.
From Verif Require Import Base Buffer Fqdn Types RDataBasic RDataSec RData Packet Dnssec BaseFacts RDataReads ObjectSpec RDataSpec RecordSpec DnssecSpec DnssecFacts
  SignSpec Sha Rsa RsaFacts PropName PropRecord PropDnssec PropSign PropVerdict.

(** ** Specification (RFC 8017) *)

(** 3: a modulus with two or more different prime factors, and exponents that undo each other. *)
Definition rsa_pair (primes : list N) (e d n : N) : Prop :=
  Forall (fun p => prime (Z.of_N p)) primes /\ NoDup primes /\ (2 <= length primes)%nat /\ n = fold_right N.mul 1 primes /\
  0 < e /\ 0 < d /\ forall p, In p primes -> e * d mod (p - 1) = 1 mod (p - 1).
(** 8.2.2 and 9.2: applying the public key to [sig] gives the octets 0 and 1, eight or more octets 255, the octet 0 and [t], as many
    as the modulus has. *)
Definition contains (n e : N) (sig t : bytes) : Prop :=
  length sig = octet_size n /\ unbe sig < n /\
  exists j, (8 <= j)%nat /\ be (octet_size n) (unbe sig ^ e mod n) = 0 :: 1 :: repeat 255 j ++ 0 :: t.

(** ** The crates' RSA and the RFC's *)
Lemma repeat_end j j' t t' : repeat 255 j ++ 0 :: t = repeat 255 j' ++ 0 :: t' -> j = j' /\ t = t'.
Proof.
  revert j'. induction j as [|j IH]; intros [|j'] E; cbn [repeat app] in E; [split; congruence|discriminate E|discriminate E|].
  assert (E' : repeat 255 j ++ 0 :: t = repeat 255 j' ++ 0 :: t') by congruence. apply IH in E'. destruct E' as (-> & ->). auto.
Qed.
Lemma contains_one n e sig t t' : contains n e sig t -> contains n e sig t' -> t = t'.
Proof. intros (_ & _ & j & _ & E) (_ & _ & j' & _ & E'). rewrite E in E'. assert (Q : repeat 255 j ++ 0 :: t = repeat 255 j' ++ 0 :: t') by congruence. apply repeat_end in Q. tauto. Qed.
Lemma verify_contains takes n e t sig : n <> 0 -> takes n e = true ->
  exists b, crate_verify takes n e t sig = Some b /\ (b = true <-> contains n e sig t).
Proof.
  intros NZ T. unfold crate_verify. rewrite T. eexists. split; [reflexivity|]. rewrite !Bool.andb_true_iff, Nat.eqb_eq, N.ltb_lt, mod_pow_eq by exact NZ. unfold contains. split.
  - intros ((L & U) & E). split; [exact L|]. split; [exact U|]. destruct (encoded (octet_size n) t) as [em|] eqn:Em; [|discriminate E].
    apply encoded_iff in Em. destruct Em as (K & ->). exists (octet_size n - length t - 3)%nat. split; [lia|].
    unfold octets_eqb in E. destruct (list_eq_dec N.eq_dec _ _) as [Q|]; [exact Q|discriminate E].
  - intros (L & U & j & J & E). split; [split; assumption|].
    assert (K : octet_size n = (j + 3 + length t)%nat).
    { apply (f_equal (@length N)) in E. rewrite be_length in E. cbn [length] in E. rewrite app_length, repeat_length in E. cbn [length] in E. lia. }
    assert (Em : encoded (octet_size n) t = Some (0 :: 1 :: repeat 255 j ++ 0 :: t)).
    { apply encoded_iff. split; [lia|]. replace (octet_size n - length t - 3)%nat with j by lia. reflexivity. }
    rewrite Em. unfold octets_eqb. destruct (list_eq_dec N.eq_dec _ _) as [Q|Q]; [reflexivity|contradiction].
Qed.
Lemma product_of_N l : product (map Z.of_N l) = Z.of_N (fold_right N.mul 1 l).
Proof. induction l as [|p l IH]; [reflexivity|]. unfold product in *. cbn [map fold_right]. rewrite IH, N2Z.inj_mul. reflexivity. Qed.
Lemma pair_undoes ps e d n m : rsa_pair ps e d n -> m < n -> (m ^ d mod n) ^ e mod n = m.
Proof.
  intros (P & ND & _ & -> & He & Hd & C) M. set (n := fold_right N.mul 1 ps) in *.
  assert (NZ : n <> 0) by lia.
  assert (Q : forall u v, (u mod n) ^ v mod n = u ^ v mod n).
  { intros u v. pattern v. apply N.peano_ind; [reflexivity|]. intros v' IH. rewrite !N.pow_succ_r', (N.mul_mod (u mod n)), IH, N.mod_mod, <- N.mul_mod by exact NZ. reflexivity. }
  rewrite Q, <- N.pow_mul_r. apply N2Z.inj. rewrite N2Z.inj_mod, N2Z.inj_pow. unfold n. rewrite <- product_of_N.
  apply rsa_back.
  - rewrite Forall_forall in *. intros z I. apply in_map_iff in I. destruct I as (p & <- & I). apply P, I.
  - apply FinFun.Injective_map_NoDup; [intros u v E; apply N2Z.inj, E|exact ND].
  - nia.
  - intros z I. apply in_map_iff in I. destruct I as (p & <- & I). rewrite Forall_forall in P. destruct (P p I) as [P1 _].
    specialize (C p I). apply (f_equal Z.of_N) in C. rewrite !N2Z.inj_mod, N2Z.inj_sub in C by lia. rewrite (N.mul_comm d e). exact C.
  - rewrite product_of_N. fold n. lia.
Qed.
Lemma pair_nonzero ps e d n : rsa_pair ps e d n -> n <> 0.
Proof.
  intros (P & _ & _ & -> & _). clear - P. induction P as [|p l H _ IH]; cbn [fold_right]; [discriminate|]. destruct H as [H _]. intros E. apply N.eq_mul_0 in E. destruct E; [lia|contradiction].
Qed.
Lemma sign_contains ps e d n t em : rsa_pair ps e d n -> byte_list t -> encoded (octet_size n) t = Some em ->
  contains n e (be (octet_size n) (mod_pow (unbe em) d n)) t.
Proof.
  intros R B E. pose proof (pair_nonzero _ _ _ _ R) as NZ. pose proof (encoded_small n t em NZ B E) as S. rewrite mod_pow_eq by exact NZ.
  assert (U : unbe (be (octet_size n) (unbe em ^ d mod n)) = unbe em ^ d mod n).
  { apply unbe_be. pose proof (N.mod_lt (unbe em ^ d) n NZ). pose proof (octet_size_bound n). lia. }
  split; [apply be_length|]. rewrite U. split; [apply N.mod_lt, NZ|]. exists (octet_size n - length t - 3)%nat.
  pose proof (encoded_length _ _ _ E) as L. pose proof (encoded_bytes _ _ _ B E) as Bm. rewrite (pair_undoes ps e d n _ R S).
  assert (V : be (octet_size n) (unbe em) = em) by (rewrite <- L; apply be_unbe, Bm). rewrite V. apply encoded_iff in E. split; [lia|apply E].
Qed.

(** ** Verifying, for every key *)
Definition is_rsa (a : salg) : Prop := In a [RSA_MD5; RSA_SHA1; RSA_SHA256; RSA_SHA512].
Lemma verify_value c x bs r k s ds e n : search_contract bs -> byte_list (dk_pk k) -> canonical_data c s ds -> rs_alg r = dk_alg k -> is_rsa (dk_alg k) ->
  rsa_public (dk_pk k) e n ->
  rrsig_verify c x bs r k s = ok_or (rsa_verify x n e (rsa_hash_of x (dk_alg k) (signed_octets r s ds)) (rs_sig r)) DnsSecVerificationError.
Proof.
  intros C B D E A P. apply (C93_verify c x bs r k s ds _ C B D). pose proof (j_rsa x (dk_pk k) (signed_octets r s ds) (rs_sig r) (dk_alg k) e n A P) as J.
  destruct (rsa_verify x n e _ (rs_sig r)) as [b|]; cbn [ok_or verdict]; auto.
Qed.
Lemma hash_same x takes dec rdec a m : rsa_hash_of (with_rsa x takes dec rdec) a m = rsa_hash_of x a m.
Proof. destruct a; reflexivity. Qed.
Theorem C94_accepts : forall (c : cfg) (x : prims) takes dec rdec (bs : bsearch) (r : rrsig) (k : dnskey) (s : rrset) (ds : list bytes) e n,
  search_contract bs -> byte_list (dk_pk k) -> canonical_data c s ds -> rs_alg r = dk_alg k -> is_rsa (dk_alg k) ->
  rsa_public (dk_pk k) e n -> n <> 0 -> takes n e = true ->
  (rrsig_verify c (with_rsa x takes dec rdec) bs r k s = Ok true <-> contains n e (rs_sig r) (rsa_hash_of x (dk_alg k) (signed_octets r s ds))) /\
  (rrsig_verify c (with_rsa x takes dec rdec) bs r k s = Ok false <-> ~ contains n e (rs_sig r) (rsa_hash_of x (dk_alg k) (signed_octets r s ds))).
Proof.
  intros c x takes dec rdec bs r k s ds e n C B D E A P NZ T. rewrite (verify_value c _ bs r k s ds e n C B D E A P), hash_same. cbn [with_rsa rsa_verify].
  destruct (verify_contains takes n e (rsa_hash_of x (dk_alg k) (signed_octets r s ds)) (rs_sig r) NZ T) as (b & -> & I). cbn [ok_or]. destruct b.
  - split; split; intros H; try reflexivity; [apply I; reflexivity|discriminate H|]. destruct H. apply I. reflexivity.
  - split; split; intros H; try reflexivity; [discriminate H|apply I in H; discriminate H|]. intros H'. apply I in H'. discriminate H'.
Qed.

(** ** Signatures of RSA/MD5 and RSA/SHA-1 made here are accepted here *)
Theorem C94_made_partial : forall (c : cfg) (x : prims) takes dec rdec (bs bs' : bsearch) seed (k : dnskey) (s : rrset) (inc exp : time) key primes e d n,
  search_contract bs -> search_contract bs' -> Forall (rdata_typed c) (set_records s) -> Forall (rdata_writable c) (set_records s) ->
  U8 (dk_protocol k) -> byte_list (dk_pk k) -> N.of_nat (length (dk_pk k)) <= 131064 -> (0 <= inc /\ 0 <= exp)%Z ->
  In (dk_alg k) [RSA_MD5; RSA_SHA1] -> rsa_pair primes e d n -> dec key = Some (n, d) -> rsa_public (dk_pk k) e n -> takes n e = true ->
  (forall m, byte_list (rsa_hash_of x (dk_alg k) m) /\ (length (rsa_hash_of x (dk_alg k) m) + 11 <= octet_size n)%nat) ->
  exists r, rrsig_from_dnskey c (with_rsa x takes dec rdec) bs seed k s inc exp key = Ok r /\ rrsig_verify c (with_rsa x takes dec rdec) bs' r k s = Ok true.
Proof.
  intros c x takes dec rdec bs bs' seed k s inc exp key primes e d n C C' Ty W U B L T A R K P Tk H.
  destruct (rrset_bytes_ok c bs s C Ty W) as (ds & D & _). set (m := signed_octets (unsigned k s inc exp []) s ds).
  destruct (H m) as (Hb & Hl). destruct (encoded (octet_size n) (rsa_hash_of x (dk_alg k) m)) as [em|] eqn:E.
  2:{ unfold encoded in E. destruct (Nat.ltb_spec (octet_size n) (length (rsa_hash_of x (dk_alg k) m) + 11)); [lia|discriminate E]. }
  set (sig := be (octet_size n) (mod_pow (unbe em) d n)). exists (unsigned k s inc exp sig). split.
  - apply (C93_sign c _ bs seed k s inc exp key ds _ C D U B L). right. split; [exact T|]. exists (Signature sig). split; [|reflexivity].
    apply s_rsa; [exact A|]. rewrite hash_same. cbn [with_rsa rsa_sign]. unfold crate_sign. rewrite K. fold m. rewrite E. reflexivity.
  - apply (C94_accepts c x takes dec rdec bs' (unsigned k s inc exp sig) k s ds e n C' B D eq_refl); try assumption.
    + destruct A as [<-|[<-|[]]]; cbn; tauto.
    + apply (pair_nonzero _ _ _ _ R).
    + cbn [unsigned rs_sig]. apply (sign_contains primes e d n _ em R Hb E).
Qed.

(** ** Refuted for RSA/SHA-256 and RSA/SHA-512: made here, rejected here.  Every key, every set. *)
Theorem C94_sha2_refuted : forall (c : cfg) (x : prims) takes dec rdec (bs bs' : bsearch) seed (k : dnskey) (s : rrset) (inc exp : time) key primes e d n h ds,
  search_contract bs -> search_contract bs' -> canonical_data c s ds ->
  U8 (dk_protocol k) -> byte_list (dk_pk k) -> N.of_nat (length (dk_pk k)) <= 131064 -> (0 <= inc /\ 0 <= exp)%Z ->
  dk_alg k = match h with RsaSha256 => RSA_SHA256 | RsaSha512 => RSA_SHA512 end ->
  rsa_pair primes e d n -> rdec key = Some (n, d) -> rsa_public (dk_pk k) e n -> takes n e = true ->
  (forall m, byte_list (digest_of x h m) /\ (length (digest_info h ++ digest_of x h m) + 11 <= octet_size n)%nat) ->
  exists r, rrsig_from_dnskey c (with_rsa x takes dec rdec) bs seed k s inc exp key = Ok r /\
    contains n e (rs_sig r) (digest_info h ++ digest_of x h (signed_octets r s ds)) /\
    rrsig_verify c (with_rsa x takes dec rdec) bs' r k s = Ok false.
Proof.
  intros c x takes dec rdec bs bs' seed k s inc exp key primes e d n h ds C C' D U B L T A R K P Tk H.
  set (m := signed_octets (unsigned k s inc exp []) s ds). destruct (H m) as (Hb & Hl).
  destruct (encoded (octet_size n) (digest_info h ++ digest_of x h m)) as [em|] eqn:E.
  2:{ unfold encoded in E. destruct (Nat.ltb_spec (octet_size n) (length (digest_info h ++ digest_of x h m) + 11)); [lia|discriminate E]. }
  set (sig := be (octet_size n) (mod_pow (unbe em) d n)).
  assert (Bi : byte_list (digest_info h ++ digest_of x h m)) by (apply Forall_app; split; [destruct h; repeat constructor|exact Hb]).
  pose proof (sign_contains primes e d n _ em R Bi E) as G. fold sig in G.
  exists (unsigned k s inc exp sig). split; [|split; [exact G|]].
  - apply (C93_sign c _ bs seed k s inc exp key ds _ C D U B L). right. split; [exact T|]. exists (Signature sig). split; [|reflexivity].
    rewrite A. apply s_ring. cbn [with_rsa ring_rsa_sign]. unfold ring_sign. rewrite K. fold m. rewrite E. reflexivity.
  - apply (C94_accepts c x takes dec rdec bs' (unsigned k s inc exp sig) k s ds e n C' B D eq_refl); try assumption.
    + unfold is_rsa. rewrite A. destruct h; cbn; tauto.
    + apply (pair_nonzero _ _ _ _ R).
    + intros G'. cbn [unsigned rs_sig] in G'. pose proof (contains_one _ _ _ _ _ G G') as Q. apply (f_equal (@length N)) in Q. rewrite app_length in Q.
      replace (length (rsa_hash_of x (dk_alg k) (signed_octets (unsigned k s inc exp sig) s ds))) with (length (digest_of x h m)) in Q
        by (rewrite A; destruct h; reflexivity).
      destruct h; cbn [digest_info length] in Q; lia.
Qed.

(** ** Refuted: signatures that others made as the RFCs say, over whatever octets, are rejected; so are those with SHA-1 and MD5. *)
Theorem C94_others_refuted : forall (c : cfg) (x : prims) takes dec rdec (bs : bsearch) (r : rrsig) (k : dnskey) (s : rrset) (ds : list bytes) e n (out : bytes),
  search_contract bs -> byte_list (dk_pk k) -> canonical_data c s ds -> rs_alg r = dk_alg k -> is_rsa (dk_alg k) ->
  rsa_public (dk_pk k) e n -> n <> 0 -> takes n e = true -> one_length (rsa_hash_of x (dk_alg k)) ->
  contains n e (rs_sig r) (rsa_digest_info (dk_alg k) ++ rsa_hash_of x (dk_alg k) out) ->
  rrsig_verify c (with_rsa x takes dec rdec) bs r k s = Ok false.
Proof.
  intros c x takes dec rdec bs r k s ds e n out C B D E A P NZ T O G. apply (C94_accepts c x takes dec rdec bs r k s ds e n); try assumption.
  intros G'. pose proof (contains_one _ _ _ _ _ G G') as Q. apply (f_equal (@length N)) in Q. rewrite app_length, (O out (signed_octets r s ds)) in Q.
  destruct A as [A|[A|[A|[A|[]]]]]; rewrite <- A in Q; cbn [rsa_digest_info digest_info length] in Q; lia.
Qed.

(** ** Examples: a key of 500 bits with 65 prime factors, and the hash functions of FIPS 180-4 *)
Lemma five_words l h : length h = 5%nat -> length (fold_left sha1_block l h) = 5%nat.
Proof.
  revert h. induction l as [|b l IH]; intros h L; [exact L|]. cbn [fold_left]. apply IH. unfold sha1_block, added. rewrite map_length, combine_length, L.
  assert (S : forall k u, length u = 5%nat -> length (fold_left sha1_step k u) = 5%nat).
  { induction k as [|t k IHk]; intros u Lu; [exact Lu|]. cbn [fold_left]. apply IHk. destruct u as [|a [|b' [|c [|d [|e [|]]]]]]; try discriminate Lu. reflexivity. }
  rewrite S by exact L. reflexivity.
Qed.
Lemma eight_words l h : length h = 8%nat -> length (fold_left sha256_block l h) = 8%nat.
Proof.
  revert h. induction l as [|b l IH]; intros h L; [exact L|]. cbn [fold_left]. apply IH. unfold sha256_block, added. rewrite map_length, combine_length, L.
  assert (S : forall k u, length u = 8%nat -> length (fold_left sha256_step k u) = 8%nat).
  { induction k as [|t k IHk]; intros u Lu; [exact Lu|]. cbn [fold_left]. apply IHk. destruct u as [|a [|b' [|c [|d [|e [|f [|g [|h' [|]]]]]]]]]; try discriminate Lu. reflexivity. }
  rewrite S by exact L. reflexivity.
Qed.
Lemma words_octets l : byte_list (flat_map (be 4) l) /\ length (flat_map (be 4) l) = (4 * length l)%nat.
Proof.
  induction l as [|w l (B & L)]; [split; [constructor|reflexivity]|]. cbn [flat_map length]. split; [apply Forall_app; split; [apply be_bytes|exact B]|].
  rewrite app_length, be_length, L. lia.
Qed.
Lemma sha_1_octets m : byte_list (sha_1 m) /\ length (sha_1 m) = 20%nat.
Proof. unfold sha_1. cbv zeta. split; [apply words_octets|]. rewrite (proj2 (words_octets _)), five_words; reflexivity. Qed.
Lemma sha_256_octets m : byte_list (sha_256 m) /\ length (sha_256 m) = 32%nat.
Proof. unfold sha_256. cbv zeta. split; [apply words_octets|]. rewrite (proj2 (words_octets _)), eight_words; reflexivity. Qed.
Definition ex_primes : list N :=
  [3; 5; 7; 11; 13; 17; 19; 23; 29; 31; 37; 41; 43; 61; 67; 71; 73; 89; 113; 127; 181; 199; 211; 241; 281; 331; 337; 397; 421; 463; 617;
   631; 661; 881; 991; 1009; 1321].
Definition ex_n : N := fold_right N.mul 1 ex_primes.
Definition ex_d : N := 34117.
Lemma ex_pair : rsa_pair ex_primes 13 ex_d ex_n.
Proof.
  split; [|split; [|split; [|split; [reflexivity|split; [reflexivity|split; [reflexivity|]]]]]].
  - assert (H : forallb (fun p => trial (Z.of_N p)) ex_primes = true) by (vm_compute; reflexivity). rewrite forallb_forall in H. apply Forall_forall. intros p I. apply trial_prime, H, I.
  - assert (H : nodup N.eq_dec ex_primes = ex_primes) by (vm_compute; reflexivity). rewrite <- H. apply NoDup_nodup.
  - unfold ex_primes. cbn [length]. lia.
  - assert (H : forallb (fun p => 13 * ex_d mod (p - 1) =? 1 mod (p - 1)) ex_primes = true) by (vm_compute; reflexivity). rewrite forallb_forall in H. intros p I. apply N.eqb_eq, H, I.
Qed.
(** A hash of one octet, so that the numbers stay small; the computed SHA-256 is used below. *)
Definition ex_sum (m : bytes) : bytes := [fold_right N.add 0 m mod 256].
Lemma ex_sum_octets m : byte_list (ex_sum m) /\ length (ex_sum m) = 1%nat.
Proof. split; [|reflexivity]. constructor; [|constructor]. apply N.mod_lt. discriminate. Qed.
Definition with_hash (h h' : bytes -> bytes) : prims :=
  mkPrims h h h' h' h' (rsa_sign toy) (ring_rsa_sign toy) (dsa_sign toy) (ecdsa_sign toy) (ed25519_sign toy) (ed448_sign toy)
    (rsa_verify toy) (dsa_verify toy) (ecdsa_verify toy) (ed25519_verify toy) (ed448_verify toy).
Definition ex_short : prims := with_hash ex_sum ex_sum.
Definition ex_takes (n e : N) : bool := N.odd n && N.odd e && (2 <=? e) && (e <? n).
Definition ex_decode (key : bytes) : option (N * N) := match key with [] => None | _ => Some (ex_n, ex_d) end.
Definition ex_rsa : prims := with_rsa ex_short ex_takes ex_decode ex_decode.
Definition ex_pk : bytes := [1; 13] ++ be 31 ex_n.
Example C94_ex_hypotheses : U8 13 /\ byte_list ex_pk /\ N.of_nat (length ex_pk) <= 131064 /\ (0 <= day /\ 0 <= 2 * day)%Z /\ rsa_public ex_pk 13 ex_n /\ ex_takes ex_n 13 = true /\
  (forall m, byte_list (rsa_hash_of ex_short RSA_SHA1 m) /\ (length (rsa_hash_of ex_short RSA_SHA1 m) + 11 <= octet_size ex_n)%nat) /\
  (forall m, byte_list (digest_of ex_short RsaSha256 m) /\ (length (digest_info RsaSha256 ++ digest_of ex_short RsaSha256 m) + 11 <= octet_size ex_n)%nat) /\
  one_length (rsa_hash_of ex_short RSA_SHA1) /\ one_length (rsa_hash_of ex_short RSA_SHA256).
Proof.
  assert (K : octet_size ex_n = 31%nat) by (vm_compute; reflexivity).
  split; [reflexivity|]. split; [constructor; [reflexivity|]; constructor; [reflexivity|apply be_bytes]|].
  split; [unfold ex_pk; rewrite app_length, be_length; cbn [length]; lia|]. split; [unfold day, second; lia|].
  split; [exists [13], (be 31 ex_n); split; [reflexivity|]; split; [vm_compute; reflexivity|]; left; split; [cbn; lia|reflexivity]|].
  split; [vm_compute; reflexivity|]. rewrite K.
  split; [intros m; destruct (ex_sum_octets m) as (B & L); cbn [rsa_hash_of ex_short with_hash sha1]; split; [exact B|lia]|].
  split; [intros m; destruct (ex_sum_octets m) as (B & L); cbn [digest_of ex_short with_hash sha256]; split; [exact B|]; rewrite app_length, L; cbn [digest_info length]; lia|].
  split; intros m m'; reflexivity.
Qed.
(** Run: the signature with SHA-1 verifies, the one with SHA-256 does not. *)
Definition ex_signed (a : salg) : res rrsig := rrsig_from_dnskey ex_cfg ex_rsa linear_search [] (ex_key a ex_pk) ex_set day (2 * day)%Z [1].
Example C94_ex : (exists r, ex_signed RSA_SHA1 = Ok r /\ rrsig_verify ex_cfg ex_rsa linear_search r (ex_key RSA_SHA1 ex_pk) ex_set = Ok true) /\
  (exists r, ex_signed RSA_SHA256 = Ok r /\ rrsig_verify ex_cfg ex_rsa linear_search r (ex_key RSA_SHA256 ex_pk) ex_set = Ok false).
Proof.
  split.
  - eexists. split; [vm_compute; reflexivity|vm_compute; reflexivity].
  - eexists. split; [vm_compute; reflexivity|vm_compute; reflexivity].
Qed.
Print Assumptions C94_accepts.
Print Assumptions C94_made_partial.
Print Assumptions C94_sha2_refuted.
Print Assumptions C94_others_refuted.

(** The example of RFC 5702, 6.1: a signature of www.example.net A 192.0.2.91, published with its key.  It is a signature as the RFCs
    define it, and it is rejected. *)
Definition rfc5702_pk : bytes :=
  [3; 1; 0; 1; 193; 92; 26; 198; 177; 197; 216; 34; 186; 225; 166; 10; 69; 72; 155; 46; 33; 247; 208; 170; 79; 184;
   240; 99; 122; 94; 196; 241; 156; 157; 65; 109; 71; 97; 97; 223; 160; 105; 162; 119; 48; 182; 70; 120; 112; 8; 45;
   189; 222; 16; 179; 195; 228; 197; 71; 105; 234; 159; 195; 149; 73; 142; 109; 217].
Definition rfc5702_signature : rrsig := mkRrsig A RSA_SHA256 3 3600 1893456000 946684800 9033 [[101; 120; 97; 109; 112; 108; 101]; [110; 101; 116]]
  [145; 16; 142; 31; 171; 187; 151; 68; 6; 203; 218; 169; 11; 217; 117; 176; 185; 220; 37; 195; 138; 20; 178; 123;
   26; 24; 148; 58; 38; 238; 226; 215; 152; 167; 149; 68; 245; 25; 220; 174; 36; 161; 100; 220; 252; 230; 108; 37;
   50; 3; 68; 105; 193; 88; 43; 249; 79; 180; 248; 149; 96; 254; 27; 194].
Definition rfc5702_set : rrset := mkRRset [[119; 119; 119]; [101; 120; 97; 109; 112; 108; 101]; [110; 101; 116]] A CIN 3600 [DA 3221226075].
Definition rfc_rsa : prims := with_rsa (with_hash sha_1 sha_256) ex_takes ex_decode ex_decode.
Theorem C94_rfc5702_refuted : forall c : cfg, let r := rfc5702_signature in let k := ex_key RSA_SHA256 rfc5702_pk in let s := rfc5702_set in
  compute_key_tag c k = Ok (rs_tag r) /\
  (exists e n out, rsa_public (dk_pk k) e n /\ ex_takes n e = true /\ rfc_signed c r s out /\ contains n e (rs_sig r) (rsa_digest_info RSA_SHA256 ++ sha_256 out)) /\
  rrsig_verify c rfc_rsa linear_search r k s = Ok false.
Proof.
  intros c. cbv zeta. split; [destruct c as [[|] [|] [|]]; vm_compute; reflexivity|]. split.
  2: { unfold rrsig_verify. change (negb (salg_eqb (rs_alg rfc5702_signature) (dk_alg (ex_key RSA_SHA256 rfc5702_pk)))) with false. cbv iota.
       assert (V : verify_input c linear_search rfc5702_signature rfc5702_set = verify_input ex_cfg linear_search rfc5702_signature rfc5702_set) by (destruct c as [[|] [|] [|]]; vm_compute; reflexivity).
       rewrite V. vm_compute. reflexivity. }
  exists (unbe (firstn 3 (skipn 1 rfc5702_pk))), (unbe (skipn 4 rfc5702_pk)), (signed_octets rfc5702_signature rfc5702_set [be 4 3221226075]).
  split; [exists (firstn 3 (skipn 1 rfc5702_pk)), (skipn 4 rfc5702_pk); split; [reflexivity|]; split; [reflexivity|]; left; split; [vm_compute; lia|reflexivity]|].
  split; [vm_compute; reflexivity|]. split.
  - exists (set_name rfc5702_set), [be 4 3221226075]. split; [left; split; reflexivity|]. split; [|reflexivity]. split; [repeat constructor|]. intros o. cbn [rfc5702_set set_records]. split.
    + intros [<-|[]]. exists (DA 3221226075). split; [left; reflexivity|reflexivity].
    + intros (d & [<-|[]] & W). left. injection W as <-. reflexivity.
  - split; [vm_compute; reflexivity|]. split; [vm_compute; reflexivity|]. exists 10%nat. split; [lia|]. rewrite <- mod_pow_eq by discriminate. vm_compute. reflexivity.
Qed.
Print Assumptions C94_rfc5702_refuted.
