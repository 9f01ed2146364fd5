(** * Property C115: records that cannot be read can be passed over *)
From Coq Require Import Lia ZifyBool ZifyNat ZifyN.
From Verif Require Import Base Buffer Fqdn Header Types RDataBasic Svcb RDataSec RData Packet BaseFacts NameSpec FqdnLoop CodeSpec CodeFacts HeaderSpec WireSpec WireFacts
  RecordProps ParseFacts ReadSpec ReadFacts SvcbParse FailSpec FailFacts PropName.

(** ** What a user of the buffer writes

    [DnsBuffer] and [ResourceRecord::try_from(&mut DnsBuffer)] are public (lib.rs:3-11), so records can be read one at a time.  The two programs below are
    not in the repository: they are what a program does that wants to ignore the records it cannot read. *)
(** Pass over a record without looking at its type, class, TTL and data: the name, eight octets, the length, the data. *)
Definition pass_over : P unit := _ <- extract_fqdn ;; _ <- advance 8 ;; len <- extract_u16 ;; advance (N.to_nat len).
(** Read a record; if that is an error go back to where it started and pass over it. *)
Definition read_or_pass (c : cfg) : P (option rr) := fun b =>
  match rr_try_from c b with
  | (Ok r, b') => (Ok (Some r), b')
  | (Err _, b') => (_ <- set_position (pos b) ;; _ <- pass_over ;; ret None) b'
  | (Panic, b') => (Panic, b')
  | (Diverge, b') => (Diverge, b')
  end.
(** Only read, and ignore errors without going back. *)
Definition read_or_ignore (c : cfg) : P (option rr) := fun b =>
  match rr_try_from c b with
  | (Ok r, b') => (Ok (Some r), b')
  | (Err _, b') => (Ok None, b')
  | (Panic, b') => (Panic, b')
  | (Diverge, b') => (Diverge, b')
  end.

(** ** What stands in the message *)
(** The outline of a record at [p]: a name, eight octets, a length and that many octets, up to [e]. *)
Definition outline_at (d : bytes) (p e : nat) : Prop := exists f k len, name_at d 191 p f k /\ u16_at d (k + 8) len /\ e = (k + 10 + N.to_nat len)%nat /\ (e <= length d)%nat.
(** Reading it returns. *)
Definition returns (c : cfg) (d : bytes) (p : nat) : Prop := ~ record_fails Panics c d p /\ ~ record_fails Loops c d p.
(** A record that is read, or one that is not. *)
Definition read_or_not (c : cfg) (d : bytes) (p : nat) (x : option rr) (e : nat) : Prop :=
  outline_at d p e /\ match x with Some r => record_on_wire c d p r e | None => forall r e', ~ record_on_wire c d p r e' end.

Lemma outline_pass d p e : byte_list d -> outline_at d p e -> pass_over (mkbuf d p) = (Ok tt, mkbuf d e).
Proof.
  intros B (f & k & len & N & U & -> & L). unfold pass_over. unfold bind at 1. apply (extract_fqdn_iff d p f k B) in N. rewrite N.
  unfold bind at 1. unfold advance at 1. cbn [data pos]. destruct (Nat.ltb_spec (length d) (k + 8)) as [X|_]; [exfalso; clear - X L; lia|].
  unfold bind at 1. rewrite (u16_read d (k + 8) len U). unfold advance. cbn [data pos].
  destruct (Nat.ltb_spec (length d) (k + 8 + 2 + N.to_nat len)); [lia|]. do 2 f_equal. lia.
Qed.
Lemma name_inside d p f k : byte_list d -> name_at d 191 p f k -> (p < length d)%nat.
Proof. intros _ N. apply name_at_end in N. lia. Qed.
Lemma outline_inside d p e : byte_list d -> outline_at d p e -> (p <= length d)%nat.
Proof. intros B (f & k & len & N & _). apply name_inside in N; [lia|exact B]. Qed.
Lemma outline_one d p e e' : byte_list d -> outline_at d p e -> outline_at d p e' -> e = e'.
Proof. intros B H H'. apply outline_pass in H, H'; try exact B. rewrite H in H'. injection H' as ->. reflexivity. Qed.
Lemma wire_outline c d p r e : record_on_wire c d p r e -> outline_at d p e.
Proof. intros (k & v & len & N & _ & _ & _ & _ & _ & _ & _ & _ & U & E & L & _). exists (rr_name r), k, len. auto. Qed.
Lemma u16_there d k : byte_list d -> (k + 2 <= length d)%nat -> exists v, u16_at d k v.
Proof.
  intros B L. destruct (extract_u16 (mkbuf d k)) as [r b] eqn:E. unfold extract_u16, bind, extract_bytes, ret in E. cbn [data pos] in E.
  destruct (Nat.ltb_spec (length d) (k + 2)); [lia|]. injection E as <- <-. eexists. eapply (u16_got d k _ _ B).
  unfold extract_u16, bind, extract_bytes, ret. cbn [data pos]. destruct (Nat.ltb_spec (length d) (k + 2)); [lia|]. reflexivity.
Qed.
(** Where the cursor stands after an error. *)
Lemma error_cursor c d p f k len x b : byte_list d -> name_at d 191 p f k -> u16_at d (k + 8) len -> (k + 10 + N.to_nat len <= length d)%nat ->
  rr_try_from c (mkbuf d p) = (Err x, b) ->
  (exists v, u16_at d k v /\ (forall t, decodable c t -> rtype_code t <> v) /\ x = InvalidType v /\ b = mkbuf d (k + 2)) \/
  (exists t, u16_at d k (rtype_code t) /\ decodable c t /\ fst (rdata_from c t (mkbuf (firstn (k + 10 + N.to_nat len) d) (k + 10))) = Err x /\ b = mkbuf d (k + 10)).
Proof.
  intros B N U L E. destruct (u16_there d k B ltac:(lia)) as (v & V). destruct (u16_there d (k + 2) B ltac:(lia)) as (v2 & V2).
  unfold rr_try_from in E. apply (extract_fqdn_iff d p f k B) in N. unfold bind at 1 in E. rewrite N in E.
  unfold bind at 1, extract_u16_as, bind at 1 in E. rewrite (u16_read d k v V) in E. unfold lift in E.
  destruct (rtype_faithful c) as (F1 & F2 & F3 & _).
  destruct (rtype_try_from c v) as [t|x'| |] eqn:T.
  - right. exists t. destruct (F2 v t T) as [D <-]. split; [exact V|]. split; [exact D|].
    unfold bind at 1 in E. rewrite (u16_read _ _ _ V2) in E. unfold bind at 1 in E. unfold extract_bytes at 1 in E. cbn [data pos] in E.
    destruct (Nat.ltb_spec (length d) (k + 2 + 2 + 4)); [lia|]. unfold bind at 1 in E. replace (k + 2 + 2 + 4)%nat with (k + 8)%nat in * by lia. rewrite (u16_read _ _ _ U) in E.
    unfold bind at 1 in E. unfold framed, sub_buffer in E. cbn [data pos] in E. replace (k + 8 + 2)%nat with (k + 10)%nat in * by lia.
    destruct (Nat.ltb_spec (length d) (k + 10 + N.to_nat len)); [lia|].
    destruct (rdata_from c t _) as [[y|y| |] sb]; cbn [fst].
    + unfold bind, advance, ret in E. cbn [data pos] in E. destruct (Nat.ltb_spec (length d) (k + 10 + N.to_nat len)); [lia|]. discriminate.
    + injection E as -> <-. auto.
    + discriminate.
    + discriminate.
  - left. exists v. split; [exact V|]. injection E as <- <-.
    assert (NX : forall t, decodable c t -> rtype_code t <> v). { intros t D <-. destruct (F1 t D) as [_ F]. rewrite F in T. discriminate. }
    split; [exact NX|]. split; [|reflexivity]. rewrite (F3 v NX) in T. injection T as <-. reflexivity.
  - discriminate.
  - discriminate.
Qed.
Lemma one_step c d p e : byte_list d -> allocatable d -> outline_at d p e -> returns c d p ->
  exists x, read_or_pass c (mkbuf d p) = (Ok x, mkbuf d e) /\ read_or_not c d p x e.
Proof.
  intros B A O (NP & NL). pose proof (outline_inside d p e B O) as Lp.
  pose proof (record_fails_iff Panics c d p B Lp) as FP. pose proof (record_fails_iff Loops c d p B Lp) as FL.
  unfold read_or_pass. destruct (rr_try_from c (mkbuf d p)) as [[r|x| |] b] eqn:E; cbn [fst fails] in FP, FL.
  - destruct (record_got c d p r b B Lp E) as (e' & R & ->). apply (record_wire c d p r e' B A) in R.
    assert (e' = e) by (eapply outline_one; [exact B|eapply wire_outline, R|exact O]). subst e'. exists (Some r). split; [reflexivity|]. split; assumption.
  - exists None. split.
    + assert (D : data b = d).
      { destruct O as (f & k & len & N & U & -> & L). destruct (error_cursor c d p f k len x b B N U L E) as [(v & _ & _ & _ & ->)|(t & _ & _ & _ & ->)]; reflexivity. }
      destruct b as [d' q]. cbn [data] in D. subst d'. unfold bind at 1.
      unfold set_position. cbn [data pos]. destruct (Nat.ltb_spec (length d) p); [lia|]. unfold bind. rewrite (outline_pass d p e B O). reflexivity.
    + split; [exact O|]. intros r e' R. apply (record_wire c d p r e' B A) in R. apply record_read in R. rewrite E in R. discriminate.
  - exfalso. apply NP, FP. reflexivity.
  - exfalso. apply NL, FL. reflexivity.
Qed.

(** ** The property *)
(** Whatever stands in the message, a program that goes back and passes over gets exactly the readable records, in order, and a mark for each of the others;
    it ends behind the last.  Partial: this supposes that reading returns; see [C115_empty_refuted]. *)
Theorem C115_passed_partial : forall (c : cfg) (d : bytes) (p e : nat) (us : list unit), byte_list d -> allocatable d ->
  consecutive (fun q _ m => outline_at d q m /\ returns c d q) p us e ->
  exists xs, length xs = length us /\ repeatP (length us) (read_or_pass c) (mkbuf d p) = (Ok xs, mkbuf d e) /\ consecutive (read_or_not c d) p xs e.
Proof.
  intros c d p e us B A H. induction H as [p|p u m us e (O & R) L H IH].
  - exists []. repeat split. constructor.
  - destruct IH as (xs & Lx & E & C). destruct (one_step c d p m B A O R) as (x & Ex & X). exists (x :: xs). cbn [length repeatP]. split; [congruence|]. split.
    + unfold bind at 1. rewrite Ex. unfold bind. rewrite E. reflexivity.
    + econstructor; eassumption.
Qed.
Print Assumptions C115_passed_partial.

(** There is only one such list of marks. *)
Theorem C115_determined : forall (c : cfg) (d : bytes) (p e e' : nat) (xs ys : list (option rr)), byte_list d -> allocatable d ->
  consecutive (read_or_not c d) p xs e -> consecutive (read_or_not c d) p ys e' -> length xs = length ys -> xs = ys /\ e = e'.
Proof.
  intros c d p e e' xs ys B A H. revert e' ys. induction H as [p|p x m xs e (O & X) L H IH]; intros e' ys K Le.
  - destruct ys; [|discriminate]. inversion K. auto.
  - destruct ys as [|y ys]; [discriminate|]. inversion K as [|? ? m' ? ? (O' & Y) L' K']; subst. pose proof (outline_one d p m m' B O O') as <-.
    injection Le as Le. destruct (IH e' ys K' Le) as (-> & ->). split; [|reflexivity]. f_equal.
    destruct x as [r|], y as [s|]; [|exfalso; eapply Y, X|exfalso; eapply X, Y|reflexivity].
    apply (record_wire _ _ _ _ _ B A), record_read in X. apply (record_wire _ _ _ _ _ B A), record_read in Y. rewrite X in Y. injection Y as ->. reflexivity.
Qed.
Print Assumptions C115_determined.

(** Where an error leaves the cursor: behind the type if the type is not known, otherwise in front of the data.  Only in the second case, and only if the data
    is empty, is that the end of the record. *)
Theorem C115_cursor : forall (c : cfg) (d : bytes) (p : nat) (f : fqdn) (k : nat) (len : N) (x : dns_error) (b : buf), byte_list d ->
  name_at d 191 p f k -> u16_at d (k + 8) len -> (k + 10 + N.to_nat len <= length d)%nat -> rr_try_from c (mkbuf d p) = (Err x, b) ->
  (exists v, u16_at d k v /\ (forall t, decodable c t -> rtype_code t <> v) /\ x = InvalidType v /\ b = mkbuf d (k + 2)) \/
  (exists t, u16_at d k (rtype_code t) /\ decodable c t /\ b = mkbuf d (k + 10)).
Proof.
  intros c d p f k len x b B N U L E. destruct (error_cursor c d p f k len x b B N U L E) as [H|(t & V & D & _ & H)]; [left; exact H|right; exists t; auto].
Qed.
Print Assumptions C115_cursor.

(** So a program that goes on reading after an error takes parts of a record for records.  The message below consists of one record of unknown type, chosen by
    the sender; the second read delivers an address record that is not in the message. *)
Definition ex_forged : bytes := [0; 3;231; 0;0; 1;0;1;0; 0;7; 60;0;4; 10;0;0;1].
Theorem C115_ignored_refuted : forall c, outline_at ex_forged 0 (length ex_forged) /\ (forall r e, ~ record_on_wire c ex_forged 0 r e) /\
  exists r, repeatP 2 (read_or_ignore c) (mkbuf ex_forged 0) = (Ok [None; Some r], mkbuf ex_forged (length ex_forged)) /\ rr_type r = A /\ rr_data r = DA 167772161.
Proof.
  intros c. assert (B : byte_list ex_forged) by (unfold byte_list, ex_forged; repeat constructor). split.
  { exists [], 1%nat, 7. split; [apply (name_root _ _ 0); reflexivity|]. split; [exists 0, 7; repeat split; reflexivity|]. split; [reflexivity|cbn; lia]. }
  split.
  - intros r e R. apply record_wire in R; [|exact B|unfold allocatable, ex_forged; cbn; lia]. apply record_read in R. destruct c as [[|] [|] [|]]; vm_compute in R; discriminate R.
  - destruct c as [[|] [|] [|]]; eexists; (split; [vm_compute; reflexivity|split; reflexivity]).
Qed.
Print Assumptions C115_ignored_refuted.

(** The error does not tell which of the two cases it was: the same error, for two records of the same outline, with the cursor in different places. *)
Theorem C115_error_refuted : exists (d d' : bytes) (x : dns_error) (q q' : nat), outline_at d 0 (length d) /\ outline_at d' 0 (length d') /\ length d = length d' /\ q <> q' /\
  rr_try_from (mkcfg true true true) (mkbuf d 0) = (Err x, mkbuf d q) /\ rr_try_from (mkcfg true true true) (mkbuf d' 0) = (Err x, mkbuf d' q').
Proof.
  exists [0; 3;231; 0;1; 0;0;0;60; 0;2; 3;231], [0; 0;46; 0;1; 0;0;0;60; 0;2; 3;231], (InvalidType 999), 3%nat, 11%nat.
  assert (X : forall a b, outline_at [0; a;b; 0;1; 0;0;0;60; 0;2; 3;231] 0 13).
  { intros a b. exists [], 1%nat, 2. split; [apply (name_root _ _ 0); reflexivity|]. split; [exists 0, 2; repeat split; reflexivity|]. split; [reflexivity|cbn; lia]. }
  split; [apply X|]. split; [apply X|]. split; [reflexivity|]. split; [discriminate|]. split; vm_compute; reflexivity.
Qed.
Print Assumptions C115_error_refuted.

(** A record of one of these types without data cannot be passed over in this way: trying to read it panics, wherever it stands. *)
Theorem C115_empty_refuted : forall (c : cfg) (d : bytes) (p : nat) (f : fqdn) (k : nat) (t : rtype), byte_list d -> In t [NS; CNAME; PTR; SOA; MINFO; TKEY; TSIG] ->
  name_at d 191 p f k -> u16_at d k (rtype_code t) -> decodable c t -> u16_at d (k + 8) 0 -> (k + 10 <= length d)%nat -> outline_at d p (k + 10) /\ fst (read_or_pass c (mkbuf d p)) = Panic.
Proof.
  intros c d p f k t B I N U D Z L. assert (O : outline_at d p (k + 10)) by (exists f, k, 0; repeat split; try assumption; cbn; lia). split; [exact O|].
  pose proof (outline_inside d p _ B O) as Lp.
  assert (F : fails Panics (fst (rr_try_from c (mkbuf d p)))).
  { apply record_fails_iff; [exact B|exact Lp|]. right. exists f, k, t, 0, (k + 10)%nat. repeat (split; [assumption || (cbn; lia)|]).
    assert (X : extract_fqdn (mkbuf (firstn (k + 10) d) (k + 10)) = (Panic, mkbuf (firstn (k + 10) d) (k + 10))).
    { unfold extract_fqdn, fqdn_fuel. cbn [data pos]. replace (2 * length (firstn (k + 10) d) + 3)%nat with (S (2 * length (firstn (k + 10) d) + 2)) by lia. cbn [fqdn_loop].
      assert (Y : nth_error (firstn (k + 10) d) (k + 10) = None) by (apply nth_error_None; rewrite firstn_length; lia). rewrite Y. reflexivity. }
    cbn [In] in I. repeat (destruct I as [<-|I]; [unfold rdata_from, pmap, name_try_from, soa_try_from, minfo_try_from, tkey_try_from, tsig_try_from; unfold bind at 1; try unfold bind at 1; try unfold pmap; try unfold bind; rewrite X; reflexivity|]); [..|destruct I]. }
  cbn [fails] in F. unfold read_or_pass. destruct (rr_try_from c (mkbuf d p)) as [r b]. cbn [fst] in F. subst r. reflexivity.
Qed.
Print Assumptions C115_empty_refuted.

(** The first theorem applies: four records, of which the second is of unknown type and the data of the third (HINFO) is cut short. *)
Definition ex_mixed : bytes := [0; 0;1; 0;1; 0;0;0;60; 0;4; 10;0;0;1;  3;99;111;109;0; 3;231; 0;1; 0;0;0;60; 0;3; 1;2;3;
  192;15; 0;13; 0;1; 0;0;0;60; 0;2; 9;9;  192;15; 0;1; 0;1; 0;0;0;60; 0;4; 10;0;0;2].
Example C115_ex : forall c, byte_list ex_mixed /\ allocatable ex_mixed /\
  consecutive (fun q _ m => outline_at ex_mixed q m /\ returns c ex_mixed q) 0 (repeat tt 4) (length ex_mixed) /\
  exists r s, repeatP 4 (read_or_pass c) (mkbuf ex_mixed 0) = (Ok [Some r; None; None; Some s], mkbuf ex_mixed (length ex_mixed)) /\ rr_data r = DA 167772161 /\ rr_data s = DA 167772162 /\ rr_name s = [[99;111;109]].
Proof.
  intros c. assert (B : byte_list ex_mixed) by (unfold byte_list, ex_mixed; repeat constructor). split; [exact B|]. split; [unfold allocatable, ex_mixed; cbn; lia|]. split.
  - assert (R : forall q, (q <= length ex_mixed)%nat -> fst (rr_try_from c (mkbuf ex_mixed q)) <> Panic -> fst (rr_try_from c (mkbuf ex_mixed q)) <> Diverge -> returns c ex_mixed q).
    { intros q L P D. split; intros F; apply record_fails_iff in F; try assumption; [apply P|apply D]; exact F. }
    assert (O : forall q f k len, extract_fqdn (mkbuf ex_mixed q) = (Ok f, mkbuf ex_mixed k) -> extract_u16 (mkbuf ex_mixed (k + 8)) = (Ok len, mkbuf ex_mixed (k + 10)) ->
      (k + 10 + N.to_nat len <= length ex_mixed)%nat -> outline_at ex_mixed q (k + 10 + N.to_nat len)).
    { intros q f k len E U L. exists f, k, len. split; [apply extract_fqdn_iff; assumption|]. split; [apply (u16_got _ _ _ _ B) in U; apply U|]. auto. }
    cbn [repeat].
    eapply (one_more _ 0 tt 15); [split; [apply (O _ [] 1%nat 4); [reflexivity|reflexivity|cbn; lia]|apply R; [cbn; lia|destruct c as [[|] [|] [|]]; vm_compute; discriminate|destruct c as [[|] [|] [|]]; vm_compute; discriminate]]|lia|].
    eapply (one_more _ 15 tt 33); [split; [apply (O _ [[99;111;109]] 20%nat 3); [reflexivity|reflexivity|cbn; lia]|apply R; [cbn; lia|destruct c as [[|] [|] [|]]; vm_compute; discriminate|destruct c as [[|] [|] [|]]; vm_compute; discriminate]]|lia|].
    eapply (one_more _ 33 tt 47); [split; [apply (O _ [[99;111;109]] 35%nat 2); [reflexivity|reflexivity|cbn; lia]|apply R; [cbn; lia|destruct c as [[|] [|] [|]]; vm_compute; discriminate|destruct c as [[|] [|] [|]]; vm_compute; discriminate]]|lia|].
    eapply (one_more _ 47 tt 63); [split; [apply (O _ [[99;111;109]] 49%nat 4); [reflexivity|reflexivity|cbn; lia]|apply R; [cbn; lia|destruct c as [[|] [|] [|]]; vm_compute; discriminate|destruct c as [[|] [|] [|]]; vm_compute; discriminate]]|lia|].
    constructor.
  - destruct c as [[|] [|] [|]]; do 2 eexists; (split; [vm_compute; reflexivity|repeat split]).
Qed.
(** And the refutation: an NS record of the root without data. *)
Example C115_ex_empty : forall c, let d := [0; 0;2; 0;1; 0;0;0;60; 0;0] in
  byte_list d /\ name_at d 191 0 [] 1 /\ u16_at d 1 (rtype_code NS) /\ decodable c NS /\ u16_at d 9 0 /\ fst (read_or_pass c (mkbuf d 0)) = Panic.
Proof.
  intros c d. split; [unfold byte_list, d; repeat constructor|]. split; [apply (name_root _ _ 0); reflexivity|]. split; [exists 0, 2; repeat split; reflexivity|].
  split; [destruct c as [[|] [|] [|]]; repeat split; discriminate|]. split; [exists 0, 0; repeat split; reflexivity|]. destruct c as [[|] [|] [|]]; vm_compute; reflexivity.
Qed.
