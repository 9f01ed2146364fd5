(** * Property C93: what signing and verifying answer, and why *)
From Coq Require Import Lia ZifyBool ZifyNat ZifyN.
From Verif Require Import Base Buffer Fqdn Types RDataBasic RDataSec RData Packet Dnssec BaseFacts ReadFacts RDataReads ObjectSpec RDataSpec RecordSpec DnssecSpec DnssecFacts
  SignSpec PropName PropRecord PropDnssec PropSign.

(** ** Specification *)

(** What the primitive of an algorithm says about a signature [sig] of [m] with the public key [pk]: yes, no, or
    nothing because it cannot read the key or the signature.  The last three algorithms have no primitive. *)
Inductive judged (x : prims) (pk m sig : bytes) : salg -> option bool -> Prop :=
| j_rsa a e n : In a [RSA_MD5; RSA_SHA1; RSA_SHA256; RSA_SHA512] -> rsa_public pk e n -> judged x pk m sig a (rsa_verify x n e (rsa_hash_of x a m) sig)
| j_dsa p q g y : dsa_public pk p q g y -> judged x pk m sig DSA_SHA1 (dsa_verify x p q g y (sha1 x m) sig)
| j_p256 : judged x pk m sig ECDSA_P256 (Some (ecdsa_verify x P256 pk m sig))
| j_p384 : judged x pk m sig ECDSA_P384 (Some (ecdsa_verify x P384 pk m sig))
| j_ed25519 : judged x pk m sig ED25519 (Some (ed25519_verify x pk m sig))
| j_ed448 : judged x pk m sig ED448 (ed448_verify x pk sig m)
| j_none a : In a [Indirect; PrivateDns; PrivateOid] -> judged x pk m sig a (Some false).
(** A key too short for the fields its algorithm says it has. *)
Definition cut_short (pk : bytes) (a : salg) : Prop :=
  In a [RSA_MD5; RSA_SHA1; RSA_SHA256; RSA_SHA512] /\ (forall e n, ~ rsa_public pk e n) \/
  a = DSA_SHA1 /\ (forall p q g y, ~ dsa_public pk p q g y).

(** What comes of signing [m]. *)
Inductive attempt := Signature (sig : bytes) | Refused | Failed | Unsupported.
(** A number without leading zero octets; zero is one octet. *)
Definition shortest (n : N) (w : bytes) : Prop := byte_list w /\ unbe w = n /\ exists b l, w = b :: l /\ (b <> 0 \/ l = []).
Inductive signs (x : prims) (seed key m : bytes) : salg -> attempt -> Prop :=
| s_rsa a sig : In a [RSA_MD5; RSA_SHA1] -> rsa_sign x key (rsa_hash_of x a m) = Some sig -> signs x seed key m a (Signature sig)
| s_rsa_no a : In a [RSA_MD5; RSA_SHA1] -> rsa_sign x key (rsa_hash_of x a m) = None -> signs x seed key m a Refused
| s_ring h sig : ring_rsa_sign x h seed key m = RsaSigned sig -> signs x seed key m (match h with RsaSha256 => RSA_SHA256 | RsaSha512 => RSA_SHA512 end) (Signature sig)
| s_ring_no h : ring_rsa_sign x h seed key m = RsaBadKey -> signs x seed key m (match h with RsaSha256 => RSA_SHA256 | RsaSha512 => RSA_SHA512 end) Refused
| s_ring_failed h : ring_rsa_sign x h seed key m = RsaSignFailed -> signs x seed key m (match h with RsaSha256 => RSA_SHA256 | RsaSha512 => RSA_SHA512 end) Failed
| s_dsa r s rb sb : dsa_sign x key (sha1 x m) = Some (r, s) -> shortest r rb -> shortest s sb -> signs x seed key m DSA_SHA1 (Signature (rb ++ sb))
| s_dsa_no : dsa_sign x key (sha1 x m) = None -> signs x seed key m DSA_SHA1 Refused
| s_ecdsa cv sig : ecdsa_sign x cv seed key m = Some sig -> signs x seed key m (match cv with P256 => ECDSA_P256 | P384 => ECDSA_P384 end) (Signature sig)
| s_ecdsa_no cv : ecdsa_sign x cv seed key m = None -> signs x seed key m (match cv with P256 => ECDSA_P256 | P384 => ECDSA_P384 end) Refused
| s_ed25519 sig : ed25519_sign x key m = Some sig -> signs x seed key m ED25519 (Signature sig)
| s_ed25519_no : ed25519_sign x key m = None -> signs x seed key m ED25519 Refused
| s_ed448 sig : ed448_sign x key m = Some sig -> signs x seed key m ED448 (Signature sig)
| s_ed448_no : ed448_sign x key m = None -> signs x seed key m ED448 Refused
| s_none a : In a [Indirect; PrivateDns; PrivateOid] -> signs x seed key m a Unsupported.

(** ** Keys: the only fault is being too short *)
Definition only_short {X} (p : P X) : Prop := forall b, match fst (p b) with Ok _ | Err LengthViolation => True | _ => False end.
Lemma os_bytes k : only_short (extract_bytes k).
Proof. intros b. unfold extract_bytes. repeat (match goal with |- context [if ?e then _ else _] => destruct e end); cbn; auto. Qed.
Lemma os_ret {X} (v : X) : only_short (ret v).
Proof. intros b. cbn. exact I. Qed.
Lemma os_bind {X Y} (p : P X) (q : X -> P Y) : only_short p -> (forall v, only_short (q v)) -> only_short (bind p q).
Proof.
  intros Hp Hq b. unfold bind. specialize (Hp b). destruct (p b) as [[v|e| |] b']; cbn [fst] in *; try exact Hp. apply Hq.
Qed.
Lemma os_u8 : only_short extract_u8.
Proof. apply os_bind; [apply os_bytes|intros v; apply os_ret]. Qed.
Lemma os_rsa : only_short rsa_key_parts.
Proof.
  apply os_bind; [apply os_u8|]. intros f. apply os_bind; [destruct (f =? 0); [apply os_bind; [apply os_bytes|intros; apply os_ret]|apply os_ret]|]. intros l.
  apply os_bind; [apply os_bytes|]. intros e. apply os_bind; [intros b; apply os_bytes|]. intros n. apply os_ret.
Qed.
Lemma os_dsa : only_short dsa_key_parts.
Proof. apply os_bind; [apply os_u8|]. intros t. do 4 (apply os_bind; [apply os_bytes|intros ?]). apply os_ret. Qed.
Lemma rsa_short pk : byte_list pk -> (forall e n, ~ rsa_public pk e n) -> fst (rsa_key_parts (buf_from pk)) = Err LengthViolation.
Proof.
  intros B H. pose proof (os_rsa (buf_from pk)) as O. destruct (fst (rsa_key_parts (buf_from pk))) as [[e n]|er| |] eqn:E; try contradiction O.
  - apply rsa_parts_iff in E; [destruct (H e n E)|exact B].
  - destruct er; try contradiction O. reflexivity.
Qed.
Lemma dsa_short pk : byte_list pk -> (forall p q g y, ~ dsa_public pk p q g y) -> fst (dsa_key_parts (buf_from pk)) = Err LengthViolation.
Proof.
  intros B H. pose proof (os_dsa (buf_from pk)) as O. destruct (fst (dsa_key_parts (buf_from pk))) as [[[[p q] g] y]|er| |] eqn:E; try contradiction O.
  - apply dsa_parts_iff in E; [destruct (H p q g y E)|exact B].
  - destruct er; try contradiction O. reflexivity.
Qed.
Lemma rsa_has pk : byte_list pk -> (exists e n, rsa_public pk e n /\ fst (rsa_key_parts (buf_from pk)) = Ok (e, n)) \/
  (forall e n, ~ rsa_public pk e n) /\ fst (rsa_key_parts (buf_from pk)) = Err LengthViolation.
Proof.
  intros B. destruct (fst (rsa_key_parts (buf_from pk))) as [[e n]|er| |] eqn:E.
  - left. exists e, n. split; [apply rsa_parts_iff; assumption|reflexivity].
  - right. assert (H : forall e n, ~ rsa_public pk e n) by (intros e n R; apply rsa_parts_iff in R; [congruence|exact B]). split; [exact H|]. rewrite <- E. apply rsa_short; assumption.
  - pose proof (os_rsa (buf_from pk)) as O. rewrite E in O. contradiction O.
  - pose proof (os_rsa (buf_from pk)) as O. rewrite E in O. contradiction O.
Qed.
Lemma dsa_has pk : byte_list pk -> (exists p q g y, dsa_public pk p q g y /\ fst (dsa_key_parts (buf_from pk)) = Ok (p, q, g, y)) \/
  (forall p q g y, ~ dsa_public pk p q g y) /\ fst (dsa_key_parts (buf_from pk)) = Err LengthViolation.
Proof.
  intros B. destruct (fst (dsa_key_parts (buf_from pk))) as [[[[p q] g] y]|er| |] eqn:E.
  - left. exists p, q, g, y. split; [apply dsa_parts_iff; assumption|reflexivity].
  - right. assert (H : forall p q g y, ~ dsa_public pk p q g y) by (intros p q g y R; apply dsa_parts_iff in R; [congruence|exact B]). split; [exact H|]. rewrite <- E. apply dsa_short; assumption.
  - pose proof (os_dsa (buf_from pk)) as O. rewrite E in O. contradiction O.
  - pose proof (os_dsa (buf_from pk)) as O. rewrite E in O. contradiction O.
Qed.

(** ** Verifying *)
Definition verdict (x : prims) (r : rrsig) (k : dnskey) (m : bytes) (v : res bool) : Prop :=
  match v with
  | Ok b => rs_alg r = dk_alg k /\ judged x (dk_pk k) m (rs_sig r) (dk_alg k) (Some b)
  | Err DnsSecVerificationError => rs_alg r <> dk_alg k \/ judged x (dk_pk k) m (rs_sig r) (dk_alg k) None
  | Err LengthViolation => rs_alg r = dk_alg k /\ cut_short (dk_pk k) (dk_alg k)
  | _ => False
  end.
Lemma judged_val x pk m sig a o : byte_list pk -> judged x pk m sig a o -> verify_with x a pk (verify_hash x a m) sig = ok_or o DnsSecVerificationError.
Proof.
  intros B J. destruct J as [a e n I R|p q g y R| | | | |a I]; cbn [verify_with verify_hash]; try (rewrite whole_key; reflexivity).
  - apply (rsa_parts_iff _ _ _ B) in R. destruct I as [<-|[<-|[<-|[<-|[]]]]]; cbn [verify_with verify_hash rsa_hash_of]; rewrite R; reflexivity.
  - apply (dsa_parts_iff _ _ _ _ _ B) in R. rewrite R. reflexivity.
  - destruct I as [<-|[<-|[<-|[]]]]; reflexivity.
Qed.
Lemma cut_val x pk m sig a : byte_list pk -> cut_short pk a -> verify_with x a pk (verify_hash x a m) sig = Err LengthViolation.
Proof.
  intros B [(I & H)|(-> & H)].
  - apply (rsa_short _ B) in H. destruct I as [<-|[<-|[<-|[<-|[]]]]]; cbn [verify_with]; rewrite H; reflexivity.
  - apply (dsa_short _ B) in H. cbn [verify_with]. rewrite H. reflexivity.
Qed.
Lemma judged_or_cut x pk m sig a : byte_list pk -> (exists o, judged x pk m sig a o) \/ cut_short pk a.
Proof.
  intros B. destruct a.
  all: try (left; eexists; constructor; fail).
  all: try (left; exists (Some false); apply j_none; cbn; tauto).
  all: try (destruct (rsa_has pk B) as [(e & n & R & _)|(H & _)]; [left; eexists; eapply j_rsa; [cbn; tauto|exact R]|right; left; split; [cbn; tauto|exact H]]; fail).
  destruct (dsa_has pk B) as [(p & q & g & y & R & _)|(H & _)]; [left; eexists; eapply j_dsa; exact R|right; right; split; [reflexivity|exact H]].
Qed.
(** [ds]: the data of the set in canonical order; [signed_octets]: RFC 4034, 3.1.8.1 (C39, C40). *)
Theorem C93_verify : forall (c : cfg) (x : prims) (bs : bsearch) (r : rrsig) (k : dnskey) (s : rrset) (ds : list bytes) (v : res bool),
  search_contract bs -> byte_list (dk_pk k) -> canonical_data c s ds ->
  (rrsig_verify c x bs r k s = v <-> verdict x r k (signed_octets r s ds) v).
Proof.
  intros c x bs r k s ds v C B D. unfold rrsig_verify. destruct (salg_eqb (rs_alg r) (dk_alg k)) eqn:Ea; cbn [negb].
  - apply salg_eqb_eq in Ea. rewrite (verify_input_eq c bs r s ds C D). cbn [rbind]. rewrite Ea.
    set (m := signed_octets r s ds). split.
    + intros <-. destruct (judged_or_cut x (dk_pk k) m (rs_sig r) (dk_alg k) B) as [(o & J)|H].
      * rewrite (judged_val _ _ _ _ _ _ B J). destruct o as [b|]; cbn [ok_or verdict]; auto.
      * rewrite (cut_val _ _ _ _ _ B H). cbn [verdict]. auto.
    + destruct v as [b|[]| |]; cbn [verdict]; intros V; try contradiction V.
      * destruct V as (_ & J). rewrite (judged_val _ _ _ _ _ _ B J). reflexivity.
      * destruct V as (_ & H). apply cut_val; assumption.
      * destruct V as [V|J]; [contradiction|]. rewrite (judged_val _ _ _ _ _ _ B J). reflexivity.
  - assert (NE : rs_alg r <> dk_alg k) by (intros E; apply salg_eqb_eq in E; congruence). split.
    + intros <-. cbn [verdict]. auto.
    + destruct v as [b|[]| |]; cbn [verdict]; intros V; try contradiction V; try (destruct V as (V & _); contradiction). reflexivity.
Qed.
(** So there is always one of these answers, never a panic. *)
Theorem C93_verify_total : forall (c : cfg) (x : prims) (bs : bsearch) (r : rrsig) (k : dnskey) (s : rrset),
  search_contract bs -> byte_list (dk_pk k) -> Forall (rdata_typed c) (set_records s) -> Forall (rdata_writable c) (set_records s) ->
  exists v, rrsig_verify c x bs r k s = v /\ ((exists b, v = Ok b) \/ v = Err DnsSecVerificationError \/ v = Err LengthViolation).
Proof.
  intros c x bs r k s C B T W. destruct (rrset_bytes_ok c bs s C T W) as (ds & D & _). exists (rrsig_verify c x bs r k s). split; [reflexivity|].
  pose proof (proj1 (C93_verify c x bs r k s ds _ C B D) eq_refl) as V. destruct (rrsig_verify c x bs r k s) as [b|[]| |]; cbn [verdict] in V; try contradiction V; eauto.
Qed.

(** ** Signing *)
Lemma unbe_cons_pow b l : unbe (b :: l) = b * 256 ^ N.of_nat (length l) + unbe l.
Proof.
  induction l as [|l y IH] using rev_ind_len; [unfold unbe; cbn; lia|].
  change (b :: l ++ [y]) with ((b :: l) ++ [y]). rewrite !unbe_app, IH, app_length. cbn [length].
  replace (N.of_nat (length l + 1)) with (N.succ (N.of_nat (length l))) by lia. rewrite N.pow_succ_r'. lia.
Qed.
Lemma min_be_shortest n w : shortest n w <-> w = min_be n.
Proof.
  assert (Q : forall k : nat, 256 ^ N.of_nat k = 2 ^ (8 * N.of_nat k)) by (intros k; rewrite N.pow_mul_r; reflexivity).
  split.
  - intros (B & <- & b & l & E & NZ). unfold min_be. rewrite <- (be_unbe w B) at 1. f_equal.
    pose proof (unbe_bound w B) as U. rewrite E in *. cbn [length] in *.
    destruct NZ as [NZ| ->].
    + assert (L : 256 ^ N.of_nat (length l) <= unbe (b :: l)).
      { rewrite unbe_cons_pow. nia. }
      rewrite Q in L, U. assert (P0 : 0 < unbe (b :: l)) by (pose proof (N.pow_nonzero 2 (8 * N.of_nat (length l)) ltac:(discriminate)); lia).
      apply N.log2_le_pow2 in L; [|exact P0]. apply N.log2_lt_pow2 in U; [|exact P0].
      assert (N.log2 (unbe (b :: l)) / 8 = N.of_nat (length l)) as -> by (symmetry; apply (N.div_unique _ _ _ (N.log2 (unbe (b :: l)) - 8 * N.of_nat (length l))); lia). lia.
    + cbn [length] in *. assert (unbe [b] < 256) by exact U. assert (L : N.log2 (unbe [b]) < 8).
      { destruct (N.eq_dec (unbe [b]) 0) as [->|]; [cbn; lia|]. apply N.log2_lt_pow2; [lia|]. exact U. }
      rewrite N.div_small by exact L. reflexivity.
  - intros ->. unfold min_be. set (k := N.to_nat (N.log2 n / 8)).
    assert (U : n < 256 ^ N.of_nat (S k)).
    { rewrite Q. destruct (N.eq_dec n 0) as [->|NZ]; [pose proof (N.pow_nonzero 2 (8 * N.of_nat (S k)) ltac:(discriminate)); lia|].
      apply N.log2_lt_pow2; [lia|]. pose proof (N.div_mod (N.log2 n) 8 ltac:(discriminate)). pose proof (N.mod_lt (N.log2 n) 8 ltac:(discriminate)). lia. }
    split; [apply be_bytes|]. split; [apply unbe_be, U|]. destruct (be (S k) n) as [|b l] eqn:E; [apply (f_equal (@length N)) in E; rewrite be_length in E; discriminate E|].
    exists b, l. split; [reflexivity|]. destruct (N.eq_dec b 0) as [->|]; [right|left; assumption].
    assert (Ll : length l = k) by (apply (f_equal (@length N)) in E; rewrite be_length in E; cbn [length] in E; lia).
    assert (Un : unbe l = n).
    { pose proof (unbe_be (S k) n U) as V. rewrite E, unbe_cons_pow in V. lia. }
    assert (Bl : byte_list l) by (pose proof (be_bytes (S k) n) as BB; rewrite E in BB; inversion BB; assumption).
    pose proof (unbe_bound l Bl) as Ub. rewrite Un, Ll, Q in Ub. destruct l as [|y l']; [reflexivity|]. exfalso. cbn [length] in Ll.
    destruct (N.eq_dec n 0) as [->|NZ]; [subst k; cbn in Ll; lia|]. apply N.log2_lt_pow2 in Ub; [|lia].
    pose proof (N.div_mod (N.log2 n) 8 ltac:(discriminate)). lia.
Qed.
(** The number with which an algorithm without primitive is reported.  By the documentation of the error it is the
    algorithm's; see [C93_number_refuted]. *)
Definition reported (a : salg) : N := match a with Indirect => 9 | PrivateDns => 10 | _ => 11 end.
Definition answer {X} (a : salg) (f : bytes -> X) (o : attempt) : res X :=
  match o with
  | Signature sig => Ok (f sig)
  | Refused => Err DnsSecSigningError
  | Failed => Panic
  | Unsupported => Err (InvalidDnsSecAlgorithm (reported a))
  end.
Lemma signs_val x seed key m a o : signs x seed key m a o -> sign_data x seed a m key = answer a (fun sig => sig) o.
Proof.
  intros S. destruct S as [a sig I E|a I E|h sig E|h E|h E|r s rb sb E Hr Hs|E|cv sig E|cv E|sig E|E|sig E|E|a I].
  - destruct I as [<-|[<-|[]]]; cbn [sign_data rsa_hash_of] in *; rewrite E; reflexivity.
  - destruct I as [<-|[<-|[]]]; cbn [sign_data rsa_hash_of] in *; rewrite E; reflexivity.
  - destruct h; cbn [sign_data]; rewrite E; reflexivity.
  - destruct h; cbn [sign_data]; rewrite E; reflexivity.
  - destruct h; cbn [sign_data]; rewrite E; reflexivity.
  - apply min_be_shortest in Hr, Hs. subst. cbn [sign_data]. rewrite E. reflexivity.
  - cbn [sign_data]. rewrite E. reflexivity.
  - destruct cv; cbn [sign_data]; rewrite E; reflexivity.
  - destruct cv; cbn [sign_data]; rewrite E; reflexivity.
  - cbn [sign_data]; rewrite E; reflexivity.
  - cbn [sign_data]; rewrite E; reflexivity.
  - cbn [sign_data]; rewrite E; reflexivity.
  - cbn [sign_data]; rewrite E; reflexivity.
  - destruct I as [<-|[<-|[<-|[]]]]; reflexivity.
Qed.
Lemma signs_some x seed key m a : exists o, signs x seed key m a o.
Proof.
  destruct a.
  - destruct (rsa_sign x key (rsa_hash_of x RSA_MD5 m)) eqn:E; eexists; [eapply s_rsa|eapply s_rsa_no]; try exact E; cbn; tauto.
  - destruct (dsa_sign x key (sha1 x m)) as [[r s]|] eqn:E; eexists; [eapply s_dsa; [exact E|apply min_be_shortest; reflexivity|apply min_be_shortest; reflexivity]|eapply s_dsa_no, E].
  - destruct (rsa_sign x key (rsa_hash_of x RSA_SHA1 m)) eqn:E; eexists; [eapply s_rsa|eapply s_rsa_no]; try exact E; cbn; tauto.
  - destruct (ring_rsa_sign x RsaSha256 seed key m) eqn:E; eexists; [eapply (s_ring_no _ _ _ _ RsaSha256)|eapply (s_ring_failed _ _ _ _ RsaSha256)|eapply (s_ring _ _ _ _ RsaSha256)]; exact E.
  - destruct (ring_rsa_sign x RsaSha512 seed key m) eqn:E; eexists; [eapply (s_ring_no _ _ _ _ RsaSha512)|eapply (s_ring_failed _ _ _ _ RsaSha512)|eapply (s_ring _ _ _ _ RsaSha512)]; exact E.
  - destruct (ecdsa_sign x P256 seed key m) eqn:E; eexists; [eapply (s_ecdsa _ _ _ _ P256)|eapply (s_ecdsa_no _ _ _ _ P256)]; exact E.
  - destruct (ecdsa_sign x P384 seed key m) eqn:E; eexists; [eapply (s_ecdsa _ _ _ _ P384)|eapply (s_ecdsa_no _ _ _ _ P384)]; exact E.
  - destruct (ed25519_sign x key m) eqn:E; eexists; [eapply s_ed25519|eapply s_ed25519_no]; exact E.
  - destruct (ed448_sign x key m) eqn:E; eexists; [eapply s_ed448|eapply s_ed448_no]; exact E.
  - eexists. apply s_none. cbn; tauto.
  - eexists. apply s_none. cbn; tauto.
  - eexists. apply s_none. cbn; tauto.
Qed.
(** The signature to be: its fields as the code fills them (C48 and C55 judge them). *)
Definition milliseconds (t : time) : N := Z.to_N (t / 1000000) mod 4294967296.
Definition unsigned (k : dnskey) (s : rrset) (inc exp : time) (sig : bytes) : rrsig :=
  mkRrsig (set_type s) (dk_alg k) (N.of_nat (length (set_name s)) mod 256) (set_ttl s) (milliseconds exp) (milliseconds inc)
    (rfc_key_tag (dnskey_rdata k)) (set_name s) sig.
Theorem C93_sign : forall (c : cfg) (x : prims) (bs : bsearch) seed (k : dnskey) (s : rrset) (inc exp : time) key (ds : list bytes) (v : res rrsig),
  search_contract bs -> canonical_data c s ds -> U8 (dk_protocol k) -> byte_list (dk_pk k) -> N.of_nat (length (dk_pk k)) <= 131064 ->
  (rrsig_from_dnskey c x bs seed k s inc exp key = v <->
   (inc < 0 \/ exp < 0)%Z /\ v = Err InvalidDnsSecSignatureTimespan \/
   (0 <= inc /\ 0 <= exp)%Z /\ exists o, signs x seed key (signed_octets (unsigned k s inc exp []) s ds) (dk_alg k) o /\
     v = answer (dk_alg k) (unsigned k s inc exp) o).
Proof.
  intros c x bs seed k s inc exp key ds v C D U B L. unfold rrsig_from_dnskey, time_field.
  destruct (Z.ltb_spec exp 0) as [He|He]; cbn [rbind].
  { split; [intros <-; left; split; [right; exact He|reflexivity]|]. intros [(_ & ->)|((_ & H) & _)]; [reflexivity|lia]. }
  destruct (Z.ltb_spec inc 0) as [Hi|Hi]; cbn [rbind].
  { split; [intros <-; left; split; [left; exact Hi|reflexivity]|]. intros [(_ & ->)|((H & _) & _)]; [reflexivity|lia]. }
  rewrite (key_tag_ok c k U B L). cbn [rbind]. unfold calculate_signature. rewrite (rrset_bytes_eq c bs s ds C D). cbn [rbind rs_alg rs_type rs_labels rs_ttl rs_exp rs_inc rs_tag rs_signer].
  set (m := rrsig_to_bytes _ ++ _).
  assert (Em : m = signed_octets (unsigned k s inc exp []) s ds).
  { subst m. unfold rrsig_to_bytes, signed_octets, unsigned. cbn [rs_alg rs_type rs_labels rs_ttl rs_exp rs_inc rs_tag rs_signer rs_sig].
    rewrite ?app_nil_r, <- ?app_assoc. reflexivity. }
  destruct (signs_some x seed key m (dk_alg k)) as (o & S). rewrite <- Em. split.
  - intros <-. right. split; [split; assumption|]. exists o. split; [exact S|]. rewrite (signs_val _ _ _ _ _ _ S). destruct o; reflexivity.
  - intros [(H & _)|(_ & o' & S' & ->)]; [lia|]. rewrite (signs_val _ _ _ _ _ _ S'). destruct o'; reflexivity.
Qed.
(** Refuted: "an algorithm that cannot be used is reported by its number".  Never is it the number. *)
Theorem C93_number_refuted : forall (c : cfg) (x : prims) (bs : bsearch) seed (k : dnskey) (s : rrset) (inc exp : time) key (ds : list bytes),
  search_contract bs -> canonical_data c s ds -> U8 (dk_protocol k) -> byte_list (dk_pk k) -> N.of_nat (length (dk_pk k)) <= 131064 ->
  (0 <= inc /\ 0 <= exp)%Z -> In (dk_alg k) [Indirect; PrivateDns; PrivateOid] ->
  exists n, rrsig_from_dnskey c x bs seed k s inc exp key = Err (InvalidDnsSecAlgorithm n) /\ n <> salg_code (dk_alg k).
Proof.
  intros c x bs seed k s inc exp key ds C D U B L T I. exists (reported (dk_alg k)). split.
  - apply (C93_sign c x bs seed k s inc exp key ds _ C D U B L). right. split; [exact T|]. exists Unsupported. split; [apply s_none, I|reflexivity].
  - destruct I as [<-|[<-|[<-|[]]]]; discriminate.
Qed.
(** Refuted: "... also when verifying"; there it is a signature that does not verify. *)
Theorem C93_unsupported_refuted : forall (c : cfg) (x : prims) (bs : bsearch) (r : rrsig) (k : dnskey) (s : rrset) (ds : list bytes),
  search_contract bs -> byte_list (dk_pk k) -> canonical_data c s ds -> rs_alg r = dk_alg k -> In (dk_alg k) [Indirect; PrivateDns; PrivateOid] ->
  rrsig_verify c x bs r k s = Ok false.
Proof. intros c x bs r k s ds C B D E I. apply (C93_verify c x bs r k s ds _ C B D). split; [exact E|apply j_none, I]. Qed.
(** Refuted: "signing does not panic".  [failing]: ring accepts the key and does not sign. *)
Definition failing : prims :=
  mkPrims (md5 toy) (sha1 toy) (sha256 toy) (sha384 toy) (sha512 toy)
    (fun _ _ => None) (fun _ _ _ _ => RsaSignFailed) (fun _ _ => None) (fun _ _ _ _ => None) (fun _ _ => None) (fun _ _ => None)
    (fun _ _ _ _ => None) (fun _ _ _ _ _ _ => None) (fun _ _ _ _ => false) (fun _ _ _ => false) (fun _ _ _ => None).
Theorem C93_panic_refuted : forall (c : cfg) (a : salg), In a [RSA_SHA256; RSA_SHA512] ->
  rrsig_from_dnskey c failing linear_search [] (ex_key a ex_rsa_pk) ex_set day (2 * day)%Z [] = Panic.
Proof. intros c a [<-|[<-|[]]]; destruct c as [[|] [|] [|]]; vm_compute; reflexivity. Qed.
(** That is the only panic: with the primitives of the other algorithms signing never panics. *)
Theorem C93_panic_partial : forall (c : cfg) (x : prims) (bs : bsearch) seed (k : dnskey) (s : rrset) (inc exp : time) key,
  search_contract bs -> Forall (rdata_typed c) (set_records s) -> Forall (rdata_writable c) (set_records s) ->
  U8 (dk_protocol k) -> byte_list (dk_pk k) -> N.of_nat (length (dk_pk k)) <= 131064 ->
  ~ In (dk_alg k) [RSA_SHA256; RSA_SHA512] \/ (forall h m, ring_rsa_sign x h seed key m <> RsaSignFailed) ->
  exists v, rrsig_from_dnskey c x bs seed k s inc exp key = v /\ v <> Panic /\ v <> Diverge.
Proof.
  intros c x bs seed k s inc exp key C T W U B L H. destruct (rrset_bytes_ok c bs s C T W) as (ds & D & _).
  exists (rrsig_from_dnskey c x bs seed k s inc exp key). split; [reflexivity|].
  destruct (proj1 (C93_sign c x bs seed k s inc exp key ds _ C D U B L) eq_refl) as [(_ & ->)|(_ & o & S & ->)]; [split; discriminate|].
  destruct o; cbn [answer]; try (split; discriminate). exfalso. remember Failed as o eqn:Eo. remember (dk_alg k) as a eqn:Ea.
  destruct S as [a' sig I E|a' I E|h sig E|h E|h E|r s' rb sb E Hr Hs|E|cv sig E|cv E|sig E|E|sig E|E|a' I]; try discriminate Eo.
  destruct H as [H|H]; [|apply (H _ _ E)]. apply H. destruct h; cbn; tauto.
Qed.

(** ** Examples: every answer is given *)
Definition ex_rrsig (a : salg) (sig : bytes) : rrsig := mkRrsig A a 3 3600 2 1 7 ex_www sig.
Example C93_ex : search_contract linear_search /\ byte_list ex_rsa_pk /\ byte_list [2; 3] /\ (exists ds, canonical_data ex_cfg ex_set ds) /\
  U8 (dk_protocol (ex_key RSA_MD5 ex_rsa_pk)) /\ N.of_nat (length (dk_pk (ex_key RSA_MD5 ex_rsa_pk))) <= 131064 /\
  rrsig_verify ex_cfg toy linear_search (ex_rrsig RSA_SHA256 []) (ex_key RSA_SHA256 ex_rsa_pk) ex_set = Ok false /\
  rrsig_verify ex_cfg failing linear_search (ex_rrsig RSA_SHA256 []) (ex_key RSA_SHA256 ex_rsa_pk) ex_set = Err DnsSecVerificationError /\
  rrsig_verify ex_cfg toy linear_search (ex_rrsig RSA_SHA256 []) (ex_key RSA_SHA512 ex_rsa_pk) ex_set = Err DnsSecVerificationError /\
  rrsig_verify ex_cfg toy linear_search (ex_rrsig RSA_SHA256 []) (ex_key RSA_SHA256 [2; 3]) ex_set = Err LengthViolation /\
  rrsig_verify ex_cfg toy linear_search (ex_rrsig Indirect []) (ex_key Indirect []) ex_set = Ok false /\
  (exists r, rrsig_from_dnskey ex_cfg toy linear_search [] (ex_key DSA_SHA1 []) ex_set day day [] = Ok r /\ rs_sig r = [7; 9]) /\
  rrsig_from_dnskey ex_cfg failing linear_search [] (ex_key ED448 []) ex_set day day [] = Err DnsSecSigningError /\
  rrsig_from_dnskey ex_cfg toy linear_search [] (ex_key ED448 []) ex_set (-1)%Z day [] = Err InvalidDnsSecSignatureTimespan /\
  rrsig_from_dnskey ex_cfg toy linear_search [] (ex_key PrivateDns []) ex_set day day [] = Err (InvalidDnsSecAlgorithm 10) /\
  shortest 256 [1; 0] /\ shortest 0 [0] /\ ~ shortest 7 [0; 7].
Proof.
  split; [exact linear_search_ok|]. split; [repeat constructor|]. split; [repeat constructor|].
  split; [destruct (rrset_bytes_ok ex_cfg linear_search ex_set linear_search_ok (proj1 (ex_set_typed _)) (proj2 (ex_set_typed _))) as (ds & D & _); exists ds; exact D|].
  split; [reflexivity|]. split; [vm_compute; discriminate|].
  do 5 (split; [vm_compute; reflexivity|]). split; [eexists; split; [vm_compute; reflexivity|reflexivity]|]. do 3 (split; [vm_compute; reflexivity|]).
  split; [split; [repeat constructor|]; split; [reflexivity|]; exists 1, [0]; split; [reflexivity|left; discriminate]|].
  split; [split; [repeat constructor|]; split; [reflexivity|]; exists 0, []; split; [reflexivity|right; reflexivity]|].
  intros (_ & _ & b & l & E & [H|H]); injection E as <- <-; [apply H; reflexivity|discriminate H].
Qed.
Print Assumptions C93_verify.
Print Assumptions C93_verify_total.
Print Assumptions C93_sign.
Print Assumptions C93_number_refuted.
Print Assumptions C93_unsupported_refuted.
Print Assumptions C93_panic_refuted.
Print Assumptions C93_panic_partial.
