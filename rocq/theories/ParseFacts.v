(** * What parsing arbitrary octets can yield: well-typed values, consumption, causes of panics. *)
From Verif Require Import Base Utf8 Buffer Fqdn Header Types RDataBasic Bitmap Svcb RDataSec RData Packet BaseFacts Utf8Facts
  BufferFacts NameSpec FqdnLoop WalkFacts FqdnFacts BitmapFacts CodeSpec CodeFacts HeaderSpec HeaderFacts RDataSpec RecordSpec.
From Coq Require Import Lia ZifyBool ZifyNat ZifyN.
Ltac Zify.zify_post_hook ::= Z.div_mod_to_equations.

(** Somewhere in the message, cut at some place, reading a name runs off the end / in a circle. *)
Definition name_runs_off (d : bytes) : Prop := exists e p, runs_off (firstn e d) p.
Definition name_circular (d : bytes) : Prop := exists e p, circular (firstn e d) p.

Lemma firstn_byte_list n (d : bytes) : byte_list d -> byte_list (firstn n d).
Proof. unfold byte_list. rewrite !Forall_forall. intros H x I. apply H. rewrite <- (firstn_skipn n d). apply in_or_app. left. exact I. Qed.

Section Run.
Context (c : cfg).
(** [run_ok k Q p]: run on octets, [p] consumes at least [k] octets and returns a value in [Q], or an
    error, or fails for one of the known causes. *)
Definition run_ok {A} (k : nat) (Q : A -> Prop) (p : P A) : Prop := forall d q,
  byte_list d -> (q <= length d)%nat ->
  match p (mkbuf d q) with
  | (Ok v, b) => data b = d /\ (q + k <= pos b <= length d)%nat /\ Q v
  | (Err _, _) => True
  | (Panic, _) => name_runs_off d \/ ovf c = true
  | (Diverge, _) => name_circular d
  end.

Lemma ok_weaken {A} k k' (Q Q' : A -> Prop) p : (k' <= k)%nat -> (forall v, Q v -> Q' v) -> run_ok k Q p -> run_ok k' Q' p.
Proof.
  intros L H R d q B I. specialize (R d q B I). destruct (p (mkbuf d q)) as [[v|e| |] b]; auto.
  destruct R as (D & P & V). split; [exact D|]. split; [lia|auto].
Qed.
Lemma ok_ret {A} (Q : A -> Prop) a : Q a -> run_ok 0 Q (ret a).
Proof. intros H d q B I. cbn. split; [reflexivity|]. split; [lia|exact H]. Qed.
Lemma ok_fail {A} (Q : A -> Prop) k e : run_ok k Q (fail e).
Proof. intros d q B I. exact Logic.I. Qed.
Lemma ok_bind {A B} k k1 k2 (Q1 : A -> Prop) (Q2 : B -> Prop) p f : run_ok k1 Q1 p ->
  (forall a, Q1 a -> run_ok k2 Q2 (f a)) -> (k <= k1 + k2)%nat -> run_ok k Q2 (bind p f).
Proof.
  intros Rp Rf L d q B1 I. specialize (Rp d q B1 I). unfold bind. destruct (p (mkbuf d q)) as [[v|e| |] [d' q']]; auto.
  cbn [data pos] in Rp. destruct Rp as (-> & P & V). specialize (Rf v V d q' B1 ltac:(lia)).
  destruct (f v (mkbuf d q')) as [[w|e| |] b]; auto. destruct Rf as (D & P' & W). split; [exact D|]. split; [lia|exact W].
Qed.
(** For sequences where only the value matters. *)
Lemma ok_seq {A B} k1 (Q1 : A -> Prop) (Q2 : B -> Prop) p f : run_ok k1 Q1 p ->
  (forall a, Q1 a -> run_ok 0 Q2 (f a)) -> run_ok 0 Q2 (bind p f).
Proof. intros Rp Rf. eapply ok_bind; [exact Rp|exact Rf|lia]. Qed.
Lemma ok_lift {A} (Q : A -> Prop) r : (forall v, r = Ok v -> Q v) -> (r = Panic -> ovf c = true) -> r <> Diverge ->
  run_ok 0 Q (lift r).
Proof.
  intros H1 H2 H3 d q B I. unfold lift. destruct r as [v|e| |]; auto; [|tauto]. split; [reflexivity|]. split; [cbn [pos]; lia|auto].
Qed.
Lemma ok_bytes n : run_ok n (fun v : bytes => length v = n /\ byte_list v) (extract_bytes n).
Proof.
  intros d q B I. unfold extract_bytes. cbn [data pos]. destruct (Nat.ltb_spec (length d) (q + n)); [exact Logic.I|].
  cbn [data pos]. split; [reflexivity|]. split; [lia|]. split; [apply slice_length; lia|apply Forall_slice; exact B].
Qed.
Lemma unbe_lt bs n m : length bs = n -> byte_list bs -> 256 ^ N.of_nat n = m -> unbe bs < m.
Proof. intros L B <-. rewrite <- L. apply unbe_bound, B. Qed.
Lemma ok_u8 : run_ok 1 U8 extract_u8.
Proof. eapply ok_bind; [apply ok_bytes| |apply le_n]. intros bs [L B]. apply ok_ret. apply (unbe_lt bs 1 _ L B). reflexivity. Qed.
Lemma ok_u16 : run_ok 2 U16 extract_u16.
Proof. eapply ok_bind; [apply ok_bytes| |apply le_n]. intros bs [L B]. apply ok_ret. apply (unbe_lt bs 2 _ L B). reflexivity. Qed.
Lemma ok_u32 : run_ok 4 U32 extract_u32.
Proof. eapply ok_bind; [apply ok_bytes| |apply le_n]. intros bs [L B]. apply ok_ret. apply (unbe_lt bs 4 _ L B). reflexivity. Qed.
Lemma ok_rest : run_ok 0 byte_list extract_rest.
Proof. intros d q B I. apply (ok_weaken _ 0 _ byte_list _ (Nat.le_0_l _) (fun v H => proj2 H) (ok_bytes _) d q B I). Qed.

Lemma faithful_total {X} (dom : X -> Prop) b code dec e n : faithful dom b code dec e ->
  (exists x, dec n = Ok x) \/ (exists er, dec n = Err er).
Proof.
  intros (F1 & _ & F3 & _). destruct (dec n) as [x|er| |] eqn:E; [left; eauto|right; eauto| |].
  - assert (H : dec n = Err (e n)) by (apply F3; intros x D C; subst n; rewrite (proj2 (F1 x D)) in E; discriminate).
    congruence.
  - assert (H : dec n = Err (e n)) by (apply F3; intros x D C; subst n; rewrite (proj2 (F1 x D)) in E; discriminate).
    congruence.
Qed.
Lemma ok_dec {X} (dom : X -> Prop) b code dec e n : faithful dom b code dec e -> run_ok 0 dom (lift (dec n)).
Proof.
  intros F. pose proof (faithful_total dom b code dec e n F) as T. apply ok_lift.
  - intros v E. destruct F as (_ & F & _). apply (F n v E).
  - intros E. destruct T as [[x T]|[x T]]; congruence.
  - intros E. destruct T as [[x T]|[x T]]; congruence.
Qed.
Lemma ok_u8_as {X} (dom : X -> Prop) b code dec e : faithful dom b code dec e -> run_ok 1 dom (extract_u8_as dec).
Proof. intros F. eapply ok_bind; [apply ok_u8| |apply le_n]. intros n _. eapply ok_dec; exact F. Qed.
Lemma ok_u16_as {X} (dom : X -> Prop) b code dec e : faithful dom b code dec e -> run_ok 2 dom (extract_u16_as dec).
Proof. intros F. eapply ok_bind; [apply ok_u16| |apply le_n]. intros n _. eapply ok_dec; exact F. Qed.

Lemma ok_char_string : run_ok 1 (fun s => short s /\ byte_list s) extract_character_string.
Proof.
  eapply ok_bind; [apply ok_u8| |apply le_n]. intros n U. eapply ok_weaken; [apply Nat.le_0_l| |apply ok_bytes].
  intros s [L B]. split; [unfold short, U8 in *; lia|exact B].
Qed.
Lemma ok_string : run_ok 1 (fun s => short s /\ text s /\ byte_list s) extract_string.
Proof.
  eapply ok_bind; [apply ok_char_string| |apply le_n]. intros s [S B]. destruct (utf8_valid s) eqn:E; [|apply ok_fail].
  apply ok_ret. repeat split; assumption.
Qed.

(** Names. *)
Lemma label_at_ok d p l : label_at d 191 p l -> label_ok l.
Proof. intros (n & _ & R & L & ->). unfold label_ok. rewrite slice_length by lia. lia. Qed.
Lemma tail_at_ok d lim p ls : tail_at d 191 lim p ls -> fqdn_ok ls.
Proof. induction 1; [constructor|constructor; [eapply label_at_ok; eassumption|assumption]|assumption]. Qed.
Lemma name_at_ok d p ls q : name_at d 191 p ls q -> fqdn_ok ls.
Proof.
  induction 1; [constructor|constructor; [eapply label_at_ok; eassumption|assumption]|].
  eapply tail_at_ok; eassumption.
Qed.
Lemma name_at_end d p ls q : name_at d 191 p ls q -> (p + 1 <= q <= length d)%nat.
Proof.
  induction 1 as [p E|p l ls q L H IH|p t ls (a & b & E & _ & E2 & _) _ _].
  - split; [lia|]. apply (nth_error_Some d p) || idtac. assert (p < length d)%nat by (apply nth_error_Some; congruence). lia.
  - lia.
  - assert (p + 1 < length d)%nat by (apply nth_error_Some; congruence). lia.
Qed.
Lemma ok_fqdn : run_ok 1 fqdn_ok extract_fqdn.
Proof.
  intros d q B I. destruct (extract_fqdn (mkbuf d q)) as [r b] eqn:E.
  pose proof (keeps_fqdn (mkbuf d q) _ _ I E) as [D _]. cbn [data] in D. destruct b as [d' q']. cbn [data pos] in *. subst d'.
  destruct r as [v|e| |]; auto.
  - apply (extract_fqdn_iff d q v q' B) in E. split; [reflexivity|]. split; [apply (name_at_end _ _ _ _ E)|apply (name_at_ok _ _ _ _ E)].
  - left. exists (length d), q. rewrite firstn_all. apply fqdn_panic_iff; [exact B|]. rewrite E. reflexivity.
  - exists (length d), q. rewrite firstn_all. apply fqdn_diverge_iff; [exact B|]. rewrite E. reflexivity.
Qed.

(** Loops. *)
Lemma ok_while {A} (I : A -> Prop) (step : A -> P A) : (forall a, I a -> run_ok 1 I (step a)) ->
  forall fuel acc d q, byte_list d -> (q <= length d)%nat -> (length d - q <= fuel)%nat -> I acc ->
  match while_remaining fuel step acc (mkbuf d q) with
  | (Ok v, b) => data b = d /\ (q <= pos b <= length d)%nat /\ I v
  | (Err _, _) => True
  | (Panic, _) => name_runs_off d \/ ovf c = true
  | (Diverge, _) => name_circular d
  end.
Proof.
  intros S. induction fuel as [|f IH]; intros acc d q B L F Ia; cbn [while_remaining]; unfold remaining; cbn [data pos];
    destruct (Nat.eqb_spec (length d - q) 0) as [Z|Z].
  - split; [reflexivity|]. split; [cbn [pos]; lia|exact Ia].
  - lia.
  - split; [reflexivity|]. split; [cbn [pos]; lia|exact Ia].
  - unfold bind. specialize (S acc Ia d q B L). destruct (step acc (mkbuf d q)) as [[v|e| |] [d' q']]; auto.
    cbn [data pos] in S. destruct S as (-> & P & V). specialize (IH v d q' B ltac:(lia) ltac:(lia) V).
    destruct (while_remaining f step v (mkbuf d q')) as [[w|e| |] b]; auto.
    destruct IH as (D & P' & W). split; [exact D|]. split; [lia|exact W].
Qed.
Lemma ok_loop {A} (I : A -> Prop) (step : A -> P A) acc : (forall a, I a -> run_ok 1 I (step a)) -> I acc ->
  run_ok 0 I (loop_remaining step acc).
Proof.
  intros S Ia d q B L. unfold loop_remaining, remaining. cbn [data pos].
  pose proof (ok_while I step S (length d - q) acc d q B L (le_n _) Ia) as H.
  destruct (while_remaining _ _ _ _) as [[v|e| |] b]; auto. rewrite Nat.add_0_r. exact H.
Qed.
Lemma ok_repeat {A} (Q : A -> Prop) k (p : P A) n : run_ok k Q p ->
  run_ok (n * k) (fun l => length l = n /\ Forall Q l) (repeatP n p).
Proof.
  intros R. induction n as [|n IH]; cbn [repeatP].
  - apply ok_ret. split; [reflexivity|constructor].
  - eapply ok_bind; [exact R| |apply le_n]. intros x X. eapply ok_bind; [exact IH| |rewrite Nat.add_0_r; apply le_n].
    intros l [L F]. apply ok_ret. split; [cbn [length]; lia|constructor; assumption].
Qed.
Lemma ok_framed {A} (Q : A -> Prop) len (p : P A) : run_ok 0 Q p -> run_ok len Q (framed len p).
Proof.
  intros R d q B L. unfold framed, sub_buffer. cbn [data pos].
  destruct (Nat.ltb_spec (length d) (q + len)) as [Z|Z]; [exact Logic.I|].
  specialize (R (firstn (q + len) d) q (firstn_byte_list _ _ B)).
  rewrite firstn_length_le in R by lia. specialize (R ltac:(lia)).
  destruct (p _) as [[v|e| |] b]; auto.
  - unfold bind, advance. cbn [data pos]. destruct (Nat.ltb_spec (length d) (q + len)); [lia|].
    cbn. split; [reflexivity|]. split; [lia|apply R].
  - destruct R as [(e & x & R)|R]; [|right; exact R]. left. exists (Nat.min e (q + len)), x. rewrite <- firstn_firstn. exact R.
  - destruct R as (e & x & R). exists (Nat.min e (q + len)), x. rewrite <- firstn_firstn. exact R.
Qed.

(** Type bitmaps. *)
Definition set_ok (ts : tset) : Prop := sorted_by rtype_code ts /\ Forall (decodable c) ts.
Definition res_ok {A} (Q : A -> Prop) (r : res A) : Prop :=
  match r with Ok v => Q v | Err _ => True | Panic => ovf c = true | Diverge => False end.
Lemma res_ok_bind {A B} (Q1 : A -> Prop) (Q2 : B -> Prop) r f : res_ok Q1 r -> (forall a, Q1 a -> res_ok Q2 (f a)) ->
  res_ok Q2 (rbind r f).
Proof. destruct r; cbn; auto. Qed.
Lemma res_ok_umul m a b : res_ok any (umul c m a b).
Proof. unfold umul. destruct (_ <? _); [exact I|]. destruct (ovf c) eqn:E; [exact E|exact I]. Qed.
Lemma res_ok_uadd m a b : res_ok any (uadd c m a b).
Proof. unfold uadd. destruct (_ <? _); [exact I|]. destruct (ovf c) eqn:E; [exact E|exact I]. Qed.
Lemma res_ok_usub m a b : res_ok any (usub c m a b).
Proof. unfold usub. destruct (_ <=? _); [exact I|]. destruct (ovf c) eqn:E; [exact E|exact I]. Qed.
Lemma res_ok_dec {X} (dom : X -> Prop) b code dec e n : faithful dom b code dec e -> res_ok dom (dec n).
Proof.
  intros F. destruct (faithful_total dom b code dec e n F) as [[x T]|[x T]]; rewrite T; [|exact I].
  cbn. destruct F as (_ & F & _). apply (F n x T).
Qed.
Lemma res_ok_rfold {A B} (Q : A -> Prop) (f : A -> B -> res A) l : (forall a x, Q a -> res_ok Q (f a x)) ->
  forall a, Q a -> res_ok Q (rfold f l a).
Proof.
  intros H. induction l as [|x l IH]; intros a Qa; cbn [rfold]; [exact Qa|].
  eapply res_ok_bind; [apply H, Qa|exact IH].
Qed.
Lemma set_ok_insert t ts : decodable c t -> set_ok ts -> set_ok (set_insert rtype_code t ts).
Proof. intros D [S F]. split; [apply set_insert_sorted; exact S|apply set_insert_Forall; assumption]. Qed.
Lemma octet_types_ok w i o acc : set_ok acc -> res_ok set_ok (octet_types c w i o acc).
Proof.
  apply res_ok_rfold. intros a x A. destruct (bit_is_set o x); [|exact A].
  eapply res_ok_bind; [apply res_ok_umul|intros ? _]. eapply res_ok_bind; [apply res_ok_umul|intros ? _].
  eapply res_ok_bind; [apply res_ok_uadd|intros ? _]. eapply res_ok_bind; [apply res_ok_uadd|intros ? _].
  eapply res_ok_bind; [eapply res_ok_dec; apply rtype_faithful|]. intros t T. apply set_ok_insert; assumption.
Qed.
Lemma bitmap_types_ok w bm : forall i acc, set_ok acc -> res_ok set_ok (bitmap_types c w i bm acc).
Proof.
  induction bm as [|o bm IH]; intros i acc A; cbn [bitmap_types]; [exact A|].
  eapply res_ok_bind; [apply octet_types_ok, A|]. intros a. apply IH.
Qed.
Lemma ok_res {A} (Q : A -> Prop) r : res_ok Q r -> run_ok 0 Q (lift r).
Proof. intros H. apply ok_lift; destruct r; cbn in H; try discriminate; try congruence; try tauto. Qed.
Lemma ok_types : run_ok 0 set_ok (types_try_from c).
Proof.
  apply ok_loop; [|split; constructor]. intros acc A. unfold window_step.
  eapply ok_bind; [apply ok_u8| |apply le_n]. intros w _. eapply ok_seq; [apply ok_u8|]. intros n _.
  eapply ok_seq; [apply ok_bytes|]. intros bm _. apply ok_res, bitmap_types_ok, A.
Qed.
Lemma set_ok_typed ts : set_ok ts -> tset_typed c ts /\ tset_fits c ts.
Proof.
  intros [S F]. split; [split; [exact S|]|exact F]. eapply Forall_impl; [|exact F]. intros t D. apply D.
Qed.

(** SVCB parameters. *)
Definition param_parsed (p : param) : Prop :=
  param_typed p /\ pkey_documented (param_key p) /\
  match p with PMandatory ks => Forall pkey_documented ks | PAlpn l => Forall short l | _ => True end.
Lemma pkey_doc_typed k : pkey_documented k -> pkey_typed k.
Proof. destruct k; cbn; try tauto. unfold U16. lia. Qed.
Lemma ok_mandatory : forall fuel len acc d q, byte_list d -> (q <= length d)%nat -> (length d - q < fuel)%nat ->
  sorted_by pkey_code acc -> Forall pkey_documented acc ->
  match mandatory_loop c fuel len acc (mkbuf d q) with
  | (Ok v, b) => data b = d /\ (q <= pos b <= length d)%nat /\ (sorted_by pkey_code v /\ Forall pkey_documented v)
  | (Err _, _) => True
  | (Panic, _) => name_runs_off d \/ ovf c = true
  | (Diverge, _) => name_circular d
  end.
Proof.
  induction fuel as [|f IH]; intros len acc d q B L F S D; cbn [mandatory_loop]; [lia|].
  destruct (len =? 0); [split; [reflexivity|split; [cbn [pos]; lia|split; assumption]]|].
  pose proof (ok_u16_as _ _ _ _ _ pkey_faithful d q B L) as R. unfold bind.
  destruct (extract_u16_as pkey_try_from (mkbuf d q)) as [[k|e| |] [d' q']]; auto.
  cbn [data pos] in R. destruct R as (-> & P & K). unfold lift.
  pose proof (res_ok_usub M64 len 2) as U. destruct (usub c M64 len 2) as [l|e| |]; auto; [|destruct U].
  specialize (IH l (set_insert pkey_code k acc) d q' B ltac:(lia) ltac:(lia) (set_insert_sorted _ _ _ S)
                (set_insert_Forall _ _ _ _ K D)).
  destruct (mandatory_loop c f l _ (mkbuf d q')) as [[v|e| |] b]; auto.
  destruct IH as (D' & P' & V). split; [exact D'|]. split; [lia|exact V].
Qed.
Lemma ok_alpn : forall fuel len acc d q, byte_list d -> (q <= length d)%nat -> (length d - q < fuel)%nat ->
  Forall short acc ->
  match alpn_loop c fuel len acc (mkbuf d q) with
  | (Ok v, b) => data b = d /\ (q <= pos b <= length d)%nat /\ Forall short v
  | (Err _, _) => True
  | (Panic, _) => name_runs_off d \/ ovf c = true
  | (Diverge, _) => name_circular d
  end.
Proof.
  induction fuel as [|f IH]; intros len acc d q B L F S; cbn [alpn_loop]; [lia|].
  destruct (len =? 0); [split; [reflexivity|split; [cbn [pos]; lia|assumption]]|].
  pose proof (ok_u8 d q B L) as R. unfold bind at 1.
  destruct (extract_u8 (mkbuf d q)) as [[n|e| |] [d' q']]; auto.
  cbn [data pos] in R. destruct R as (-> & P & K).
  pose proof (ok_bytes (N.to_nat n) d q' B ltac:(lia)) as R. unfold bind at 1.
  destruct (extract_bytes (N.to_nat n) (mkbuf d q')) as [[s|e| |] [d2 q2]]; auto.
  cbn [data pos] in R. destruct R as (-> & P2 & LS & BS).
  pose proof (res_ok_usub M64 len (n + 1)) as U. unfold bind, lift. destruct (usub c M64 len (n + 1)) as [l|e| |]; auto; [|destruct U].
  assert (S' : Forall short (acc ++ [s])).
  { apply Forall_app. split; [exact S|]. constructor; [|constructor]. unfold short, U8 in *. lia. }
  specialize (IH l (acc ++ [s]) d q2 B ltac:(lia) ltac:(lia) S').
  destruct (alpn_loop c f l _ (mkbuf d q2)) as [[v|e| |] b]; auto.
  destruct IH as (D' & P' & V). split; [exact D'|]. split; [lia|exact V].
Qed.

Lemma ok_param : run_ok 4 param_parsed (param_try_from c).
Proof.
  unfold param_try_from. eapply ok_bind; [eapply ok_u16_as; apply pkey_faithful| |apply le_n]. intros key K.
  eapply ok_bind; [apply ok_u16| |apply le_n]. intros len L.
  destruct key.
  - apply (ok_weaken 0 0 (fun p => exists ks, p = PMandatory ks /\ sorted_by pkey_code ks /\ Forall pkey_documented ks)); [lia| |].
    { intros p (ks & -> & S & D). split; [|split; [exact K|exact D]]. split; [exact S|].
      eapply Forall_impl; [|exact D]. intros k. apply pkey_doc_typed. }
    intros d q B I. apply (fun H => ok_seq 0 _ _ (fun b => mandatory_loop c (S (remaining (mkbuf d q))) len [] b)
       (fun ks => ret (PMandatory ks)) H) || idtac.
    pose proof (ok_mandatory (S (remaining (mkbuf d q))) len [] d q B I) as R. unfold remaining in R at 1. cbn [data pos] in R.
    specialize (R ltac:(lia)  ltac:(constructor) ltac:(constructor)). unfold bind.
    destruct (mandatory_loop _ _ _ _ _) as [[v|e| |] b]; auto. destruct R as (D & P & V). cbn [ret].
    split; [exact D|]. split; [cbn; lia|]. exists v. split; [reflexivity|exact V].
  - apply (ok_weaken 0 0 (fun p => exists l, p = PAlpn l /\ Forall short l)); [lia| |].
    { intros p (l & -> & S). split; [exact Logic.I|]. split; [exact K|exact S]. }
    intros d q B I.
    pose proof (ok_alpn (S (remaining (mkbuf d q))) len [] d q B I) as R. unfold remaining in R at 1. cbn [data pos] in R.
    specialize (R ltac:(lia) ltac:(constructor)). unfold bind.
    destruct (alpn_loop _ _ _ _ _) as [[v|e| |] b]; auto. destruct R as (D & P & V). cbn [ret].
    split; [exact D|]. split; [cbn; lia|]. exists v. split; [reflexivity|exact V].
  - apply ok_ret. repeat split.
  - eapply ok_seq; [apply ok_u16|]. intros n U. apply ok_ret. split; [exact U|]. split; exact Logic.I.
  - eapply ok_seq; [apply ok_u32|]. intros n U. apply ok_ret. split; [exact U|]. split; exact Logic.I.
  - eapply ok_seq; [apply ok_bytes|]. intros bs _. apply ok_ret. repeat split.
  - eapply ok_seq; [apply ok_bytes|]. intros bs [LB BB]. apply ok_ret. split; [|split; exact Logic.I].
    apply (unbe_lt bs 16 _ LB BB). reflexivity.
  - eapply ok_seq; [apply ok_bytes|]. intros bs _. apply ok_ret. split; [|split; [exact K|exact Logic.I]].
    apply (pkey_doc_typed _ K).
  - apply ok_ret. repeat split.
Qed.
Definition params_parsed (ps : list param) : Prop := sorted_by param_code ps /\ Forall param_parsed ps.
Lemma ok_param_step acc : params_parsed acc -> run_ok 1 params_parsed (param_step c acc).
Proof.
  intros [S F] d q B L. unfold param_step, sub_buffer, remaining. cbn [data pos].
  destruct (Nat.ltb_spec (length d) (q + (length d - q))); [lia|].
  replace (q + (length d - q))%nat with (length d) by lia. rewrite firstn_all.
  pose proof (ok_param d q B L) as R. destruct (param_try_from c (mkbuf d q)) as [[p|e| |] [d' q']]; auto.
  cbn [data pos] in R. destruct R as (-> & P & V). unfold bind, set_position. cbn [data pos].
  destruct (Nat.ltb_spec (length d) q'); [lia|]. cbn [ret data pos].
  split; [reflexivity|]. split; [lia|]. split; [apply set_insert_sorted, S|apply set_insert_Forall; assumption].
Qed.
End Run.

(** ** Record data *)
(** What is known about the data parsed from a record of type [t]: the variant, the ranges the Rust
    types guarantee, and the wire conditions, except those that parsing does not ensure. *)
Definition reparsable (c : cfg) (d : rdata) : Prop :=
  match d with
  | DSSHFP _ => False
  | DTXT l => Forall short l
  | DCAA x => short (caa_tag x)
  | DSVCB x => Forall param_fits (sv_params x)
  | _ => True
  end.
Definition rdata_parsed (c : cfg) (t : rtype) (d : rdata) : Prop :=
  rdata_type d = t /\ (rtype_exists c t = true -> rdata_typed c d) /\ (reparsable c d -> rdata_fits c d).

Lemma ok_pmap {A B} c (Q : A -> Prop) (Q' : B -> Prop) (f : A -> B) p : run_ok c 0 Q p -> (forall a, Q a -> Q' (f a)) ->
  run_ok c 0 Q' (pmap f p).
Proof. intros R H. unfold pmap. eapply ok_seq; [exact R|]. intros a Ha. apply ok_ret, H, Ha. Qed.

Ltac prim :=
  first [ apply ok_u8 | apply ok_u16 | apply ok_u32 | apply ok_fqdn | apply ok_rest | apply ok_char_string | apply ok_string
        | apply ok_types | apply ok_bytes
        | eapply ok_u8_as; first [apply alg_faithful|apply fptype_faithful|apply cert_usage_faithful|apply selector_faithful
                                 |apply matching_faithful|apply salg_faithful|apply digest_type_faithful]
        | eapply ok_u16_as; first [apply idtype_faithful|apply tserr_faithful|apply tkmode_faithful|apply tkerr_faithful
                                 |apply rtype_faithful] ].
Ltac sq := eapply ok_seq; [prim|intros ? ?; cbv beta in *].
Ltac fin := apply ok_ret.
Local Arguments U8 _ : simpl never.
Local Arguments U16 _ : simpl never.
Local Arguments U32 _ : simpl never.
Local Arguments U48 _ : simpl never.
Local Arguments U64 _ : simpl never.
Local Arguments U128 _ : simpl never.
Local Arguments short _ : simpl never.
Local Arguments short16 _ : simpl never.
Local Arguments text _ : simpl never.
Local Arguments fqdn_ok _ : simpl never.
Local Arguments decodable _ _ : simpl never.
Local Arguments tset_typed _ _ : simpl never.
Local Arguments tset_fits _ _ : simpl never.
Local Arguments params_parsed _ : simpl never.
Local Arguments gateway_typed _ : simpl never.

(** Every record type: the parser's result satisfies [rdata_parsed]. *)
Lemma nflags_length s : (length (nflags_of s) <= length s)%nat.
Proof.
  induction s as [|x s IH]; [apply le_n|]. unfold nflags_of in *. cbn [flat_map]. rewrite app_length. cbn [length].
  destruct (nflag_try_from x); cbn [length]; lia.
Qed.
Lemma opt_insert_keys k v m : NoDup (map fst m) -> NoDup (map fst (opt_insert k v m)) /\
  (forall x, In x (map fst (opt_insert k v m)) -> x = k \/ In x (map fst m)).
Proof.
  induction m as [|[k' v'] m IH]; intros H; cbn [opt_insert].
  - split; [repeat constructor; intros []|]. intros x [X|[]]; left; symmetry; exact X.
  - cbn [map fst] in H. apply NoDup_cons_iff in H. destruct H as [H1 H2]. destruct (N.eqb_spec k k') as [<-|D].
    + cbn [map fst]. split; [constructor; assumption|]. intros x [X|X]; [left; symmetry; exact X|right; right; exact X].
    + destruct (IH H2) as [I1 I2]. cbn [map fst]. split.
      * constructor; [|exact I1]. intros X. destruct (I2 _ X) as [->|X']; [congruence|tauto].
      * intros x [X|X]; [right; left; exact X|]. destruct (I2 _ X) as [->|X']; [left; reflexivity|right; right; exact X'].
Qed.
Lemma opt_insert_Forall (Q : N * bytes -> Prop) k v m : Q (k, v) -> Forall Q m -> Forall Q (opt_insert k v m).
Proof.
  intros Hk. induction 1 as [|[k' v'] m H F IH]; cbn [opt_insert]; [repeat constructor; exact Hk|].
  destruct (k =? k'); constructor; assumption.
Qed.
Lemma csync_lt n v : n < 65536 -> csync_flags_try_from n = Ok v -> v < 4.
Proof.
  unfold csync_flags_try_from. intros L. destruct (N.eqb_spec (N.land n 65532) 0) as [E|E]; [|discriminate].
  intros H; injection H as <-.
  assert (H : n = N.land n 3).
  { apply N.bits_inj. intros i. rewrite N.land_spec.
    assert (T : N.testbit (N.land n 65532) i = false) by (rewrite E; apply N.bits_0). rewrite N.land_spec in T.
    destruct (N.ltb_spec i 16) as [Li|Li].
    - assert (C : i = 0 \/ i = 1 \/ i = 2 \/ i = 3 \/ i = 4 \/ i = 5 \/ i = 6 \/ i = 7 \/ i = 8 \/ i = 9 \/ i = 10 \/ i = 11 \/ i = 12 \/
                  i = 13 \/ i = 14 \/ i = 15) by lia.
      repeat (destruct C as [->|C]); try subst i; destruct (N.testbit n _); cbn in *; congruence.
    - assert (N.testbit n i = false) as ->; [|reflexivity].
      destruct (N.eq_dec n 0) as [->|Z]; [apply N.bits_0|].
      apply N.bits_above_log2. apply N.log2_lt_pow2; [lia|]. eapply N.lt_le_trans; [exact L|].
      change 65536 with (2 ^ 16). apply N.pow_le_mono_r; lia. }
  rewrite H. change 3 with (N.ones 2). rewrite N.land_ones. apply N.mod_upper_bound. discriminate.
Qed.
Lemma csync_dec_ok c n : res_ok c any (csync_flags_try_from n).
Proof. unfold csync_flags_try_from. destruct (negb _); exact I. Qed.
Lemma unbe_resize k bs m : byte_list bs -> 256 ^ N.of_nat k = m -> unbe (resize k bs) < m.
Proof.
  intros B. assert (L : length (resize k bs) = k) by (unfold resize; rewrite firstn_length, app_length, repeat_length; lia).
  intros E. apply (unbe_lt _ k _ L); [|exact E]. unfold resize. apply firstn_byte_list. apply Forall_app. split; [exact B|].
  apply Forall_forall. intros x X. apply repeat_spec in X. subst x. reflexivity.
Qed.

Lemma ok_rdata c t : run_ok c 0 (rdata_parsed c t) (rdata_from c t).
Proof.
  destruct t; cbn [rdata_from].
  - eapply ok_pmap; [eapply ok_weaken; [apply Nat.le_0_l|intros v V; exact V|apply ok_u32]|].
    intros a U. split; [reflexivity|]. split; [intros E; split; assumption|intros _; exact I].
  - eapply ok_pmap; [eapply ok_weaken; [apply Nat.le_0_l|intros v V; exact V|apply ok_fqdn]|].
    intros f F. split; [reflexivity|]. split; [intros E; split; [exact E|exact I]|intros _; exact F].
  - eapply ok_pmap; [eapply ok_weaken; [apply Nat.le_0_l|intros v V; exact V|apply ok_fqdn]|].
    intros f F. split; [reflexivity|]. split; [intros E; split; [exact E|exact I]|intros _; exact F].
  - apply ok_pmap with (Q := fun x => (U32 (soa_serial x) /\ U32 (soa_refresh x) /\ U32 (soa_retry x) /\ U32 (soa_expire x) /\
              U32 (soa_minimum x)) /\ fqdn_ok (soa_mname x) /\ fqdn_ok (soa_rname x)).
    + unfold soa_try_from. do 7 sq. fin. cbn. tauto.
    + intros a [X Y]. split; [reflexivity|]. split; [intros E; split; assumption|intros _; exact Y].
  - eapply ok_pmap; [apply ok_rest|]. intros a _. split; [reflexivity|]. split; [intros E; split; [exact E|exact I]|intros _; exact I].
  - apply ok_pmap with (Q := fun x => U32 (wks_addr x) /\ U8 (wks_proto x)).
    + unfold wks_try_from. do 3 sq. fin. cbn. tauto.
    + intros a X. split; [reflexivity|]. split; [intros E; split; assumption|intros _; exact I].
  - eapply ok_pmap; [eapply ok_weaken; [apply Nat.le_0_l|intros v V; exact V|apply ok_fqdn]|].
    intros f F. split; [reflexivity|]. split; [intros E; split; [exact E|exact I]|intros _; exact F].
  - apply ok_pmap with (Q := fun x => short (hinfo_cpu x) /\ short (hinfo_os x)).
    + unfold hinfo_try_from. do 2 sq. fin. cbn. tauto.
    + intros a X. split; [reflexivity|]. split; [intros E; split; [exact E|exact I]|intros _; exact X].
  - apply ok_pmap with (Q := fun x => fqdn_ok (minfo_r x) /\ fqdn_ok (minfo_e x)).
    + unfold minfo_try_from. do 2 sq. fin. cbn. tauto.
    + intros a X. split; [reflexivity|]. split; [intros E; split; [exact E|exact I]|intros _; exact X].
  - apply ok_pmap with (Q := fun x => U16 (mx_pref x) /\ fqdn_ok (mx_exchange x)).
    + unfold mx_try_from. do 2 sq. fin. cbn. tauto.
    + intros a [X Y]. split; [reflexivity|]. split; [intros E; split; assumption|intros _; exact Y].
  - apply ok_pmap with (Q := Forall text).
    + unfold txt_try_from. apply ok_loop; [|constructor]. intros acc A. unfold txt_step.
      eapply ok_bind; [apply ok_u8| |apply le_n]. intros n _. sq. fin. apply Forall_app. split; [exact A|].
      constructor; [apply utf8_lossy_valid|constructor].
    + intros a X. split; [reflexivity|]. split; [intros E; split; assumption|intros Y; exact Y].
  - apply ok_pmap with (Q := U128).
    + unfold aaaa_try_from. sq. fin. destruct H as [L B]. apply (unbe_lt _ 16 _ L B). reflexivity.
    + intros a X. split; [reflexivity|]. split; [intros E; split; assumption|intros _; exact I].
  - apply ok_pmap with (Q := fun x => (U8 (loc_version x) /\ U8 (loc_size x) /\ U8 (loc_horiz x) /\ U8 (loc_vert x)) /\
              U32 (loc_lat x) /\ U32 (loc_long x) /\ U32 (loc_alt x)).
    + unfold loc_try_from. do 7 sq. fin. cbn. tauto.
    + intros a X. split; [reflexivity|]. split; [intros E; split; assumption|intros _; exact I].
  - apply ok_pmap with (Q := fun x => (U16 (srv_prio x) /\ U16 (srv_weight x) /\ U16 (srv_port x)) /\ fqdn_ok (srv_target x)).
    + unfold srv_try_from. do 4 sq. fin. cbn. tauto.
    + intros a [X Y]. split; [reflexivity|]. split; [intros E; split; assumption|intros _; exact Y].
  - apply ok_pmap with (Q := fun x => (U16 (na_order x) /\ U16 (na_pref x) /\ text (na_regexp x)) /\
              (length (na_flags x) <= 255)%nat /\ short (na_service x) /\ short (na_regexp x) /\ fqdn_ok (na_repl x)).
    + unfold naptr_try_from. do 6 sq. fin. cbn.
      match goal with H : short ?s /\ byte_list ?s |- context [nflags_of ?s] =>
        pose proof (nflags_length s); unfold short in H; assert (length (nflags_of s) <= 255)%nat by lia end. tauto.
    + intros a [X Y]. split; [reflexivity|]. split; [intros E; split; assumption|intros _; exact Y].
  - apply ok_pmap with (Q := fun m : opt => (NoDup (map fst m) /\ Forall (fun e => U16 (fst e)) m) /\ Forall (fun e => short16 (snd e)) m).
    + unfold opt_try_from. apply ok_loop; [|repeat constructor]. intros m [[N F] S]. unfold opt_step.
      eapply ok_bind; [apply ok_u16| |apply le_S, le_n]. intros k K. eapply ok_seq; [apply ok_u16|]. intros n L.
      eapply ok_seq; [apply ok_bytes|]. intros v [LV _]. fin.
      split; [split|]; [apply (opt_insert_keys k v m N)|apply opt_insert_Forall; assumption|].
      apply opt_insert_Forall; [|exact S]. cbn [snd]. unfold short16, U16 in *. lia.
    + intros a [X Y]. split; [reflexivity|]. split; [intros E; split; assumption|intros _; exact Y].
  - apply ok_pmap with (Q := fun x => U8 (apl_prefix x) /\ afd_typed (apl_afd x)).
    + unfold apl_try_from. do 4 sq. destruct H2 as [_ B].
      repeat match goal with |- run_ok _ _ _ (match ?x with _ => _ end) => destruct x; try apply ok_fail end;
        fin; (split; [assumption|]); cbn; [apply (unbe_resize 16)|apply (unbe_resize 4)]; try assumption; reflexivity.
    + intros a X. split; [reflexivity|]. split; [intros E; split; assumption|intros _; exact I].
  - apply ok_pmap with (Q := fun x => U16 (ds_tag x)).
    + unfold ds_try_from. do 4 sq. fin. cbn. tauto.
    + intros a X. split; [reflexivity|]. split; [intros E; split; assumption|intros _; exact I].
  - apply ok_pmap with (Q := fun x => True).
    + unfold sshfp_try_from. do 3 sq. fin. exact I.
    + intros a X. split; [reflexivity|]. split; [intros E; split; assumption|intros Y; exact Y].
  - apply ok_pmap with (Q := fun x => (U8 (ip_prec x) /\ gateway_typed (ip_gw x)) /\
                                      match ip_gw x with GwDomain f => fqdn_ok f | _ => True end).
    + unfold ipseckey_try_from. do 3 sq.
      apply ok_seq with (k1 := 0%nat) (Q1 := fun g => gateway_typed g /\ match g with GwDomain f => fqdn_ok f | _ => True end).
      * repeat match goal with |- run_ok _ _ _ (match ?x with _ => _ end) => destruct x; try apply ok_fail end.
        -- sq. fin. split; exact I.
        -- sq. fin. split; [exact I|assumption].
        -- sq. fin. split; [|exact I]. destruct H2 as [L B]. apply (unbe_lt _ 16 _ L B). reflexivity.
        -- sq. fin. split; [assumption|exact I].
      * intros g G. sq. fin. cbn. tauto.
    + intros a [X Y]. split; [reflexivity|]. split; [intros E; split; assumption|intros _; exact Y].
  - apply ok_pmap with (Q := fun x => (rtype_exists c (rs_type x) = true /\ U8 (rs_labels x) /\ U32 (rs_ttl x) /\ U32 (rs_exp x) /\
                U32 (rs_inc x) /\ U16 (rs_tag x)) /\ decodable c (rs_type x) /\ fqdn_ok (rs_signer x)).
    + unfold rrsig_try_from. do 9 sq. fin. cbn. pose proof (proj1 H). tauto.
    + intros a [X Y]. split; [reflexivity|]. split; [intros E; split; assumption|intros _; exact Y].
  - apply ok_pmap with (Q := fun x => tset_typed c (ns_types x) /\ fqdn_ok (ns_next x) /\ tset_fits c (ns_types x)).
    + unfold nsec_try_from. do 2 sq. fin. apply set_ok_typed in H0. cbn. tauto.
    + intros a [X Y]. split; [reflexivity|]. split; [intros E; split; assumption|intros _; exact Y].
  - apply ok_pmap with (Q := fun x => U8 (dk_protocol x)).
    + unfold dnskey_try_from. do 4 sq. fin. cbn. tauto.
    + intros a X. split; [reflexivity|]. split; [intros E; split; assumption|intros _; exact I].
  - apply ok_pmap with (Q := fun x => True).
    + unfold dhcid_try_from. do 2 sq. destruct (negb _); [apply ok_fail|]. sq. fin. exact I.
    + intros a X. split; [reflexivity|]. split; [intros E; split; assumption|intros _; exact I].
  - apply ok_pmap with (Q := fun x => True).
    + unfold tlsa_try_from. do 4 sq. fin. exact I.
    + intros a X. split; [reflexivity|]. split; [intros E; split; assumption|intros _; exact I].
  - apply ok_pmap with (Q := fun x => short (hip_hit x) /\ short16 (hip_pk x) /\
              match hip_rv x with Some l => l <> [] /\ Forall fqdn_ok l | None => True end).
    + unfold hip_try_from. do 5 sq. intros d q B L. unfold remaining. cbn [data pos].
      assert (SH : short a2) by (unfold short, U8 in *; destruct H2; lia).
      assert (SK : short16 a3) by (unfold short16, U16 in *; destruct H3; lia).
      destruct (Nat.eqb_spec (length d - q) 0) as [Z|Z].
      * split; [reflexivity|]. split; [cbn [pos]; lia|]. cbn. tauto.
      * assert (R : run_ok c 0 (fun ns : list fqdn => Forall fqdn_ok ns) (loop_remaining names_step [])).
        { apply ok_loop; [|constructor]. intros acc A. unfold names_step. eapply ok_bind; [apply ok_fqdn| |apply le_n].
          intros f F. fin. apply Forall_app. split; [exact A|repeat constructor; exact F]. }
        specialize (R d q B L). unfold bind. destruct (loop_remaining names_step [] (mkbuf d q)) as [[ns|e| |] b] eqn:EL; auto.
        cbn [ret]. destruct R as (D & P & F). split; [exact D|]. split; [lia|]. cbn. repeat split; try assumption.
        intros ->. revert EL. unfold loop_remaining, remaining. cbn [data pos].
        destruct (length d - q)%nat as [|f] eqn:EF; [lia|]. cbn [while_remaining]. unfold remaining. cbn [data pos].
        destruct (Nat.eqb_spec (length d - q) 0) as [Z'|_]; [lia|]. unfold bind at 1. unfold names_step at 1, bind at 1.
        destruct (extract_fqdn (mkbuf d q)) as [[g|e| |] b1]; try discriminate. cbn [ret app].
        assert (NE : forall fuel acc b v b', acc <> [] -> while_remaining fuel names_step acc b = (Ok v, b') -> v <> []).
        { induction fuel as [|k IH]; intros acc b0 v b' A; cbn [while_remaining]; destruct (_ =? _)%nat; try congruence.
          unfold bind at 1. unfold names_step at 1, bind at 1. destruct (extract_fqdn b0) as [[g'|e| |] b2]; try discriminate.
          cbn [ret]. apply IH. intros C. apply app_eq_nil in C. destruct C; discriminate. }
        intros EL. apply NE in EL; [congruence|discriminate].
    + intros a X. split; [reflexivity|]. split; [intros E; split; [exact E|exact I]|intros _; exact X].
  - apply ok_pmap with (Q := fun x => U16 (ds_tag x)).
    + unfold ds_try_from. do 4 sq. fin. cbn. tauto.
    + intros a X. split; [reflexivity|]. split; [intros E; split; assumption|intros _; exact I].
  - apply ok_pmap with (Q := fun x => U8 (dk_protocol x)).
    + unfold dnskey_try_from. do 4 sq. fin. cbn. tauto.
    + intros a X. split; [reflexivity|]. split; [intros E; split; assumption|intros _; exact I].
  - eapply ok_pmap; [apply ok_rest|]. intros a _. split; [reflexivity|]. split; [intros E; split; [exact E|exact I]|intros _; exact I].
  - apply ok_pmap with (Q := fun x => (U32 (cs_serial x) /\ cs_flags x < 4 /\ tset_typed c (cs_types x)) /\ tset_fits c (cs_types x)).
    + unfold csync_try_from. sq. eapply ok_seq.
      * unfold extract_u16_as. eapply ok_seq; [apply ok_u16|]. intros n U.
        apply (ok_lift c (fun v => v < 4)).
        -- intros v. apply csync_lt. exact U.
        -- pose proof (csync_dec_ok c n). destruct (csync_flags_try_from n); cbn in *; congruence || tauto.
        -- pose proof (csync_dec_ok c n). destruct (csync_flags_try_from n); cbn in *; congruence || tauto.
      * intros f F. sq. fin. apply set_ok_typed in H0. cbn. tauto.
    + intros a [X Y]. split; [reflexivity|]. split; [intros E; split; assumption|intros _; exact Y].
  - apply ok_pmap with (Q := fun x => U16 (sv_prio x) /\ fqdn_ok (sv_target x) /\ params_parsed (sv_params x)).
    + unfold svcb_try_from. do 2 sq. eapply ok_seq; [apply ok_loop; [apply ok_param_step|split; constructor]|].
      intros ps PS. fin. cbn. tauto.
    + intros a (X & Y & S & F). split; [reflexivity|]. split.
      * intros E; split; [exact E|]. split; [exact X|]. split; [exact S|]. eapply Forall_impl; [|exact F]. intros p Z. apply Z.
      * intros Z. split; assumption.
  - eapply ok_pmap; [eapply ok_weaken; [apply Nat.le_0_l|intros v V; exact V|apply ok_bytes]|].
    intros f [F _]. split; [reflexivity|]. split; [intros E; split; assumption|intros _; exact I].
  - eapply ok_pmap; [eapply ok_weaken; [apply Nat.le_0_l|intros v V; exact V|apply ok_bytes]|].
    intros f [F _]. split; [reflexivity|]. split; [intros E; split; assumption|intros _; exact I].
  - apply ok_pmap with (Q := fun x => (U32 (tk_inc x) /\ U32 (tk_exp x)) /\ fqdn_ok (tk_alg x) /\ tkmode_documented (tk_mode x) /\
          tkerr_documented (tk_err x) /\ short16 (tk_key x) /\ short16 (tk_other x)).
    + unfold tkey_try_from. do 9 sq. fin. cbn. unfold short16, U16 in *. repeat split; try assumption; lia.
    + intros a ((X1 & X2) & Y). split; [reflexivity|]. split; [|intros _; exact Y].
      intros E; split; [exact E|]. split; [exact X1|]. split; [exact X2|]. destruct Y as (_ & M & R & _).
      destruct (tk_mode a), (tk_err a); cbn in M, R |- *; unfold U16; split; try exact I; lia.
  - apply ok_pmap with (Q := fun x => (U64 (ts_time x) /\ U16 (ts_fudge x) /\ U16 (ts_id x)) /\ fqdn_ok (ts_alg x) /\ U48 (ts_time x) /\
          short16 (ts_mac x) /\ short16 (ts_other x)).
    + unfold tsig_try_from. do 9 sq. fin. cbn [ts_time ts_fudge ts_id ts_alg ts_mac ts_other].
      assert (T : U48 (unbe ([0; 0] ++ a0))).
      { destruct H0 as [L B]. change (unbe a0 < 281474976710656). apply (unbe_lt _ 6 _ L B). reflexivity. }
      unfold short16, U16, U48, U64 in *. repeat split; try assumption; lia.
    + intros a [X Y]. split; [reflexivity|]. split; [intros E; split; assumption|intros _; exact Y].
  - apply ok_pmap with (Q := fun x => U16 (uri_prio x) /\ U16 (uri_weight x)).
    + unfold uri_try_from. do 3 sq. fin. cbn. tauto.
    + intros a X. split; [reflexivity|]. split; [intros E; split; assumption|intros _; exact I].
  - apply ok_pmap with (Q := fun x => text (caa_tag x) /\ caa_tag x <> []).
    + unfold caa_try_from. do 2 sq. destruct (N.eqb_spec a0 0) as [Z|Z]; [apply ok_fail|]. do 2 sq. fin. cbn.
      split; [apply utf8_lossy_valid|]. destruct H1 as [L _]. destruct a1 as [|b r]; [cbn in L; lia|].
      unfold utf8_lossy. cbn [length utf8_lossy_fuel]. intros C.
      pose proof (scan_bounds b r) as SB.
      destruct (utf8_scan b r) as [[] n]; [|discriminate].
      destruct n; [lia|]. apply app_eq_nil in C. destruct C as [C _]. discriminate.
    + intros a [X Y]. split; [reflexivity|]. split; [intros E; split; assumption|intros Z; split; [exact Y|exact Z]].
Qed.

(** ** Questions, records, packets *)
Lemma qclass_dec_ok c n : res_ok c any (qclass_try_from n).
Proof. unfold qclass_try_from, ok_or. destruct (assoc _ _); exact I. Qed.
Lemma ok_question c : run_ok c 5 (question_ok c) (question_try_from c).
Proof.
  unfold question_try_from. eapply ok_bind; [apply ok_fqdn| |apply le_n]. intros f F.
  eapply ok_bind; [eapply ok_u16_as; apply qtype_faithful| |apply le_n]. intros t T.
  destruct (mdns c) eqn:M.
  - eapply ok_bind; [apply ok_u16| |apply le_n]. intros v V. destruct (negb _).
    + eapply ok_seq; [apply ok_res, qclass_dec_ok|]. intros k _. fin. split; [exact F|]. split; [exact T|]. cbn. congruence.
    + eapply ok_seq; [apply ok_res, qclass_dec_ok|]. intros k _. fin. split; [exact F|]. split; [exact T|]. cbn. congruence.
  - apply ok_bind with (k1 := 2%nat) (k2 := 0%nat) (Q1 := any); [|intros k _; fin; split; [exact F|split; [exact T|reflexivity]]|apply le_n].
    unfold extract_u16_as. eapply ok_bind; [apply ok_u16| |apply le_n]. intros n _. apply ok_res, qclass_dec_ok.
Qed.

(** What is known of every parsed record. *)
Definition rr_parsed (c : cfg) (r : rr) : Prop :=
  rr_head_ok c r /\ rdata_typed c (rr_data r) /\ (reparsable c (rr_data r) -> rdata_fits c (rr_data r)).
Lemma class_parse_plain c v : rclass_plain (fst (rr_class_field_parse c v)) /\
  (mdns c = false -> snd (rr_class_field_parse c v) = false).
Proof.
  unfold rr_class_field_parse. destruct (mdns c); [destruct (negb _)|]; cbn [fst snd];
    (split; [apply rclass_from_plain|congruence]).
Qed.
Lemma ok_rr c : run_ok c 11 (rr_parsed c) (rr_try_from c).
Proof.
  unfold rr_try_from. eapply ok_bind; [apply ok_fqdn| |apply le_n]. intros f F.
  eapply ok_bind; [eapply ok_u16_as; apply rtype_faithful| |apply le_n]. intros t T.
  eapply ok_bind; [apply ok_u16| |apply le_n]. intros v V.
  eapply ok_bind; [apply ok_bytes| |apply le_n]. intros tb [TL TB].
  eapply ok_bind; [apply ok_u16| |apply le_n]. intros len L.
  eapply ok_seq; [apply ok_framed, ok_rdata|]. intros d (D1 & D2 & D3). fin.
  destruct (class_parse_plain c v) as [K1 K2]. unfold rr_parsed, rr_head_ok. cbn [rr_name rr_type rr_class rr_ttl rr_flush rr_data].
  repeat split; try assumption; try apply T.
  - symmetry. exact D1.
  - apply (unbe_lt _ 4 _ TL TB). reflexivity.
  - subst t. apply D2. apply T.
  - subst t. apply D2. apply T.
Qed.
Lemma ok_header c : run_ok c 12 header_typed header_try_from.
Proof.
  unfold header_try_from. eapply ok_bind; [apply ok_u16| |apply le_n]. intros i Hi.
  eapply ok_bind; [apply ok_bytes| |apply le_n]. intros fb [FL FB].
  eapply ok_bind; [apply ok_u16| |apply le_n]. intros q Hq.
  eapply ok_bind; [apply ok_u16| |apply le_n]. intros a Ha.
  eapply ok_bind; [apply ok_u16| |apply le_n]. intros n Hn.
  eapply ok_bind; [apply ok_u16| |apply le_n]. intros x Hx. fin.
  unfold header_typed, U16 in *. cbn [id hflags ques_count ans_count auth_count add_count flags_from_bytes raw].
  repeat split; try assumption. destruct fb as [|x0 [|x1 [|? ?]]]; try discriminate.
  apply Forall_cons_iff in FB. destruct FB as [B0 FB]. apply Forall_cons_iff in FB. destruct FB as [B1 _].
  cbn [nth]. lia.
Qed.

Definition packet_parsed (c : cfg) (p : packet) : Prop :=
  header_typed (p_header p) /\ counts_of p = true_counts p /\
  Forall (question_ok c) (p_questions p) /\ Forall (rr_parsed c) (records_of p).
Lemma ok_packet c : run_ok c 12 (packet_parsed c) (packet_try_from_buf c).
Proof.
  unfold packet_try_from_buf. eapply ok_bind; [apply ok_header| |apply le_n]. intros h H.
  eapply ok_seq; [apply ok_repeat, ok_question|]. intros qs [Lq Fq].
  eapply ok_seq; [apply ok_repeat, ok_rr|]. intros an [La Fa].
  eapply ok_seq; [apply ok_repeat, ok_rr|]. intros au [Lu Fu].
  eapply ok_seq; [apply ok_repeat, ok_rr|]. intros ad [Ld Fd]. fin.
  unfold packet_parsed, counts_of, true_counts, records_of. cbn [p_header p_questions p_answers p_authorities p_additionals].
  split; [exact H|]. split; [|split; [exact Fq|]].
  - rewrite Lq, La, Lu, Ld, !N2Nat.id. reflexivity.
  - apply Forall_app. split; [exact Fa|]. apply Forall_app. split; assumption.
Qed.
Lemma packet_try_parsed c d p : byte_list d -> packet_try_from c d = Ok p -> packet_parsed c p.
Proof.
  intros B E. pose proof (ok_packet c d 0%nat B (Nat.le_0_l _)) as R. unfold packet_try_from, buf_from in E.
  destruct (packet_try_from_buf c (mkbuf d 0)) as [r b]. cbn [fst] in E. subst r. apply R.
Qed.
(** Panics and endless loops come from names, or from an overflow check. *)
Lemma packet_try_panic c d : byte_list d -> packet_try_from c d = Panic -> name_runs_off d \/ ovf c = true.
Proof.
  intros B E. pose proof (ok_packet c d 0%nat B (Nat.le_0_l _)) as R. unfold packet_try_from, buf_from in E.
  destruct (packet_try_from_buf c (mkbuf d 0)) as [r b]. cbn [fst] in E. subst r. exact R.
Qed.
Lemma packet_try_diverge c d : byte_list d -> packet_try_from c d = Diverge -> name_circular d.
Proof.
  intros B E. pose proof (ok_packet c d 0%nat B (Nat.le_0_l _)) as R. unfold packet_try_from, buf_from in E.
  destruct (packet_try_from_buf c (mkbuf d 0)) as [r b]. cbn [fst] in E. subst r. exact R.
Qed.
