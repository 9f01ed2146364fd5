(** * C126: the key of a signature is found among any number of keys *)
From Coq Require Import ZArith Lia ZifyBool ZifyNat ZifyN Permutation.
From Verif Require Import Base Buffer Fqdn Header Types RDataBasic RDataSec RData Packet Dnssec BaseFacts FqdnFacts CodeSpec RDataSpec RDataReads CompressSpec ChunkFacts
  RecordSpec HeaderSpec DnssecSpec DnssecFacts PacketFacts ObjectSpec VerifySpec PropName PropRecord PropPacket PropDnssec PropVerify PropVerdict PropTrust.

(** The keys in the records received. *)
Fixpoint keys_in (rs : list rr) : list dnskey :=
  match rs with [] => [] | r :: rs' => match rr_data r with DDNSKEY k => k :: keys_in rs' | _ => keys_in rs' end end.
(** The key tag of a key as the library tells it: the one in a DS record made from it. *)
Definition tag_of (c : cfg) (x : prims) (k : dnskey) : res N := let! d := ds_from_dnskey c x [] k DtSHA256 in Ok (ds_tag d).
(** A validator tries the keys that have the tag that the signature names, one by one, until one fits.  What [Rrsig::verify] says of the others,
    errors included, is passed over; keys of another algorithm are among them, because [Rrsig] does not show its algorithm. *)
Fixpoint any_key (c : cfg) (x : prims) (bs : bsearch) (ks : list dnskey) (r : rrsig) (s : rrset) : res bool :=
  match ks with
  | [] => Ok false
  | k :: ks' =>
    let! t := tag_of c x k in
    if t =? rs_tag r
    then match rrsig_verify c x bs r k s with Ok true => Ok true | Ok false | Err _ => any_key c x bs ks' r s | Panic => Panic | Diverge => Diverge end
    else any_key c x bs ks' r s
  end.
(** Another one tries only the first of them. *)
Fixpoint first_key (c : cfg) (x : prims) (bs : bsearch) (ks : list dnskey) (r : rrsig) (s : rrset) : res bool :=
  match ks with
  | [] => Ok false
  | k :: ks' =>
    let! t := tag_of c x k in
    if t =? rs_tag r then rrsig_verify c x bs r k s else first_key c x bs ks' r s
  end.
(** Keys as they come out of a message: octets, no more than a record has. *)
Definition key_received (k : dnskey) : Prop := U8 (dk_protocol k) /\ byte_list (dk_pk k) /\ N.of_nat (length (dk_pk k)) <= 131064.

Lemma tag_of_eq c x k : key_received k -> tag_of c x k = Ok (rfc_key_tag (dnskey_rdata k)).
Proof. intros (U & B & L). unfold tag_of, ds_from_dnskey. rewrite (C40_key_tag_partial c k U B L). reflexivity. Qed.

(** It never panics, and says yes exactly if one of the keys with the tag of the signature accepts it. *)
Theorem C126_any : forall (c : cfg) (x : prims) (bs : bsearch) (ks : list dnskey) (r : rrsig) (s : rrset), search_contract bs ->
  Forall key_received ks -> Forall (rdata_typed c) (set_records s) -> Forall (rdata_writable c) (set_records s) ->
  exists b, any_key c x bs ks r s = Ok b /\
    (b = true <-> exists k, In k ks /\ rfc_key_tag (dnskey_rdata k) = rs_tag r /\ rrsig_verify c x bs r k s = Ok true).
Proof.
  intros c x bs ks r s C F T W. induction F as [|k ks K F (b & E & H)]; cbn [any_key].
  - exists false. split; [reflexivity|]. split; [discriminate|intros (k & [] & _)].
  - rewrite (tag_of_eq c x k K). cbn [rbind].
    destruct (rfc_key_tag (dnskey_rdata k) =? rs_tag r) eqn:M.
    + destruct K as (_ & B & _). destruct (C93_verify_total c x bs r k s C B T W) as (v & Ev & Hv). rewrite Ev.
      apply N.eqb_eq in M.
      assert (Rest : v <> Ok true -> exists b0, any_key c x bs ks r s = Ok b0 /\
        (b0 = true <-> exists k0, In k0 (k :: ks) /\ rfc_key_tag (dnskey_rdata k0) = rs_tag r /\ rrsig_verify c x bs r k0 s = Ok true)).
      { intros Nv. exists b. split; [exact E|]. rewrite H. split; [intros (k0 & I & X); exists k0; split; [right; exact I|exact X]|].
        intros (k0 & [<-|I] & X); [destruct X as (_ & X); congruence|]. exists k0. split; assumption. }
      destruct Hv as [(b' & ->)|[->| ->]]; [destruct b'; [|apply Rest; discriminate]|apply Rest; discriminate|apply Rest; discriminate].
      exists true. split; [reflexivity|]. split; [|reflexivity]. intros _. exists k. split; [left; reflexivity|]. split; [exact M|exact Ev].
    + exists b. split; [exact E|]. rewrite H. split; [intros (k0 & I & X); exists k0; split; [right; exact I|exact X]|].
      intros (k0 & [<-|I] & X1 & X2); [|exists k0; repeat split; assumption].
      exfalso. rewrite X1, N.eqb_refl in M. discriminate M.
Qed.

(** A set signed with the library is accepted with the keys of a message that contains the key that signed it, whatever other keys are in it and where. *)
Theorem C126_found_partial : forall (c : cfg) (x : prims) (bs bs' : bsearch) (h : hasher) seed (k : dnskey) (s : rrset) (inc exp : time) key (r : rrsig) (p : packet) (out : bytes) (kr : rr),
  search_contract bs -> search_contract bs' -> Forall (rdata_typed c) (set_records s) -> Forall (rdata_writable c) (set_records s) ->
  key_pair x key (dk_pk k) (dk_alg k) -> rrsig_from_dnskey c x bs seed k s inc exp key = Ok r ->
  sent c h p out -> In kr (records_of p) -> rr_data kr = DDNSKEY k -> Forall key_received (keys_in (records_of p)) ->
  exists p', packet_try_from c out = Ok p' /\ any_key c x bs' (keys_in (records_of p')) r s = Ok true.
Proof.
  intros c x bs bs' h seed k s inc exp key r p out kr C C' T W Kp Sg S I D F. destruct (sent_arrives c h p out S) as (p' & R & Q). exists p'. split; [exact R|]. rewrite Q.
  assert (Ik : In k (keys_in (records_of p))).
  { clear - I D. induction (records_of p) as [|r0 rs IH]; [destruct I|]. cbn [keys_in]. destruct I as [->|I]; [rewrite D; left; reflexivity|]. destruct (rr_data r0); try exact (IH I). right. exact (IH I). }
  destruct (C126_any c x bs' _ r s C' F T W) as (b & E & H). rewrite E. f_equal. apply H. exists k. split; [exact Ik|].
  pose proof (proj1 (Forall_forall _ _) F k Ik) as (U & B & L).
  pose proof (C39_signed_verifies_partial c x bs bs' seed k s inc exp key r C C' T W B Kp Sg) as V.
  apply from_dnskey_ok in Sg; try assumption. destruct Sg as (ds & tag & i & e & _ & Et & _ & _ & Er & _). rewrite (C40_key_tag_partial c k U B L) in Et. apply Ok_inj in Et.
  rewrite Er. cbn [rs_tag]. split; [exact Et|]. rewrite <- Er. exact V.
Qed.

(** The tag does not single out a key: exchanging two octets of the key that are an even number of places apart makes another key of the same tag. *)
Theorem C126_tag_refuted : forall (c : cfg) (zone sep : bool) (protocol : N) (alg : salg) (a b : N) (pre mid suf : bytes), Nat.even (length mid) = false ->
  let k := mkDnskey zone sep protocol alg (pre ++ a :: mid ++ b :: suf) in let k' := mkDnskey zone sep protocol alg (pre ++ b :: mid ++ a :: suf) in
  key_received k -> compute_key_tag c k' = compute_key_tag c k /\ (a <> b -> k' <> k).
Proof.
  intros c zone sep protocol alg a b pre mid suf Ev k k' K.
  assert (K' : key_received k').
  { destruct K as (U & B & L). split; [exact U|]. cbn [k k' dk_pk] in *. split.
    - unfold byte_list in *. rewrite Forall_app in *. destruct B as (B1 & B2). split; [exact B1|]. inversion B2 as [|? ? Ba B3]; subst. rewrite Forall_app in B3. destruct B3 as (B3 & B4). inversion B4 as [|? ? Bb B5]; subst.
      constructor; [exact Bb|]. rewrite Forall_app. split; [exact B3|]. constructor; assumption.
    - rewrite app_length in *. cbn [length] in *. rewrite app_length in *. cbn [length] in *. exact L. }
  destruct K as (U & B & L), K' as (U' & B' & L'). rewrite (C40_key_tag_partial c k U B L), (C40_key_tag_partial c k' U' B' L'). split.
  - f_equal. unfold rfc_key_tag. replace (weighted_sum true (dnskey_rdata k')) with (weighted_sum true (dnskey_rdata k)); [reflexivity|].
    assert (Wa : forall l l' e, weighted_sum e (l ++ l') = weighted_sum e l + weighted_sum (if Nat.even (length l) then e else negb e) l').
    { induction l as [|o l IH]; intros l' e; cbn [app weighted_sum length]; [destruct e; reflexivity|]. rewrite (IH l' (negb e)).
      replace (if Nat.even (S (length l)) then e else negb e) with (if Nat.even (length l) then negb e else negb (negb e)); [lia|].
      rewrite Nat.even_succ, <- Nat.negb_even. destruct (Nat.even (length l)), e; reflexivity. }
    unfold dnskey_rdata. cbn [k k' dk_zone dk_sep dk_protocol dk_alg dk_pk]. rewrite !(Wa [_; _; _; _]). f_equal. rewrite !(Wa pre). f_equal.
    cbn [weighted_sum]. rewrite !Wa, Ev. cbn [weighted_sum]. generalize (if Nat.even (length pre) then if Nat.even (length [if zone then 1 else 0; if sep then 1 else 0; protocol; salg_code alg]) then true else negb true else negb (if Nat.even (length [if zone then 1 else 0; if sep then 1 else 0; protocol; salg_code alg]) then true else negb true)).
    intros e. destruct e; cbn [negb]; lia.
  - intros Ne E. apply (f_equal dk_pk) in E. cbn [k k' dk_pk] in E. apply app_inv_head in E. injection E as E _. congruence.
Qed.
(** So whoever tries only the first key with the tag turns good signatures down.  A scheme in which the key matters: *)
Definition keyed : prims :=
  mkPrims (fun m => m) (fun m => m) (fun m => m) (fun m => m) (fun m => m)
    (fun _ d => Some d) (fun h _ _ m => RsaSigned (digest_info h ++ m)) (fun _ _ => Some (7, 9)) (fun _ _ _ m => Some m) (fun key m => Some (key ++ m)) (fun _ m => Some m)
    (fun _ _ d s => Some (same d s)) (fun _ _ _ _ _ s => match s with 48 :: _ => Some true | _ => None end)
    (fun _ _ m s => same m s) (fun pk m s => same (pk ++ m) s) (fun _ s m => Some (same m s)).
Lemma keyed_pair pk : key_pair keyed pk pk ED25519.
Proof. apply pair_ed25519. intros m sg H. injection H as <-. cbn [keyed ed25519_verify]. unfold same. destruct (list_eq_dec N.eq_dec (pk ++ m) (pk ++ m)); [reflexivity|contradiction]. Qed.
Theorem C126_first_refuted : forall c : cfg, exists (k k' : dnskey) (r : rrsig), key_received k /\ key_received k' /\ key_pair keyed [1; 2; 3] (dk_pk k) (dk_alg k) /\
  rrsig_from_dnskey c keyed linear_search [] k ex_set day (2 * day)%Z [1; 2; 3] = Ok r /\
  first_key c keyed linear_search [k'; k] r ex_set = Ok false /\ any_key c keyed linear_search [k'; k] r ex_set = Ok true.
Proof.
  intros c. destruct c as [[|] [|] [|]]; exists (ex_key ED25519 [1; 2; 3]), (ex_key ED25519 [3; 2; 1]); eexists;
    (split; [repeat split; try discriminate; repeat constructor|]; split; [repeat split; try discriminate; repeat constructor|]; split; [apply keyed_pair|]; split; [vm_compute; reflexivity|]; split; vm_compute; reflexivity).
Qed.
(** A message with three keys of which two have the same tag. *)
Definition dnskey_rr (k : dnskey) : rr := mkRR ex_www DNSKEY false CIN 3600 (DDNSKEY k).
Definition key_set : packet := mkPacket (mkheader 8 (hflags (header_new_reply 0 StandardQuery)) 0 3 0 0) []
  [dnskey_rr (ex_key ED448 [9]); dnskey_rr (ex_key ED25519 [3; 2; 1]); dnskey_rr (ex_key ED25519 [1; 2; 3])] [] [].
Example C126_ex : exists r out, key_pair keyed [1; 2; 3] (dk_pk (ex_key ED25519 [1; 2; 3])) ED25519 /\
  rrsig_from_dnskey ex_cfg keyed linear_search [] (ex_key ED25519 [1; 2; 3]) ex_set day (2 * day)%Z [1; 2; 3] = Ok r /\
  sent ex_cfg ex_hash key_set out /\ Forall key_received (keys_in (records_of key_set)).
Proof.
  eexists. eexists. split; [apply keyed_pair|]. split; [vm_compute; reflexivity|]. split.
  - apply sent_compressed; [|reflexivity|apply separates_b_true; vm_compute; reflexivity|vm_compute; reflexivity|vm_compute; discriminate].
    split; [repeat split|]. split; [constructor|].
    repeat (apply Forall_cons; [split; [|split]|]); try apply Forall_nil; repeat split; try discriminate; try reflexivity; unfold fqdn_ok, label_ok; repeat constructor; cbn; lia.
  - repeat (apply Forall_cons; [repeat split; try discriminate; repeat constructor|]). apply Forall_nil.
Qed.
Print Assumptions C126_any.
Print Assumptions C126_found_partial.
Print Assumptions C126_tag_refuted.
Print Assumptions C126_first_refuted.
