(** * Lemmas for C69 and C70: two builds run in parallel. *)
From Coq Require Import Lia ZifyNat ZifyN.
From Verif Require Import Base Buffer Fqdn Header Types RDataBasic Bitmap Svcb RDataSec RData Packet Dnssec CodeSpec CodeFacts ApiSpec BuildSpec BaseFacts NameSpec HeaderSpec WireSpec FieldSpec ReadSpec.

(** How a run can end without a result. *)
Inductive outcome := OErr (e : dns_error) | OPanic | ODiverge.
Definition ending {X} (r : res X) : option outcome :=
  match r with Ok _ => None | Err e => Some (OErr e) | Panic => Some OPanic | Diverge => Some ODiverge end.

Section Two.
Variable bad : outcome -> Prop.
(** Equal, or the first one ends badly. *)
Definition agr {X} (r r' : res X) : Prop := r = r' \/ exists o, bad o /\ ending r = Some o.
Definition agp {X} (p p' : P X) : Prop := forall b, p b = p' b \/ exists o, bad o /\ ending (fst (p b)) = Some o.

Lemma agr_refl {X} (r : res X) : agr r r.
Proof. left. reflexivity. Qed.
Lemma agr_bind {X Y} (r r' : res X) (f f' : X -> res Y) : agr r r' -> (forall x, agr (f x) (f' x)) -> agr (rbind r f) (rbind r' f').
Proof.
  intros [->|(o & B & F)] H.
  - destruct r'; cbn; [apply H|apply agr_refl..].
  - right. exists o. split; [exact B|]. destruct r; cbn in *; try discriminate; exact F.
Qed.
Lemma agp_refl {X} (p : P X) : agp p p.
Proof. intros b. left. reflexivity. Qed.
Lemma agp_lift {X} (r r' : res X) : agr r r' -> agp (lift r) (lift r').
Proof. intros [->|H] b; [left; reflexivity|right; exact H]. Qed.
Lemma agp_bind {X Y} (p p' : P X) (f f' : X -> P Y) : agp p p' -> (forall x, agp (f x) (f' x)) -> agp (bind p f) (bind p' f').
Proof.
  intros H G b. unfold bind. destruct (H b) as [->|(o & B & F)].
  - destruct (p' b) as [[x|e| |] b']; try (left; reflexivity). apply G.
  - right. exists o. split; [exact B|]. destruct (p b) as [[x|e| |] b']; cbn in *; try discriminate; exact F.
Qed.
Lemma agp_at {X} (p p' : buf -> P X) : (forall b, agp (p b) (p' b)) -> agp (fun b => p b b) (fun b => p' b b).
Proof. intros H b. apply H. Qed.
Lemma agp_while {X} (s s' : X -> P X) : (forall x, agp (s x) (s' x)) -> forall n x, agp (while_remaining n s x) (while_remaining n s' x).
Proof.
  intros H. induction n as [|n IH]; intros x b; cbn [while_remaining].
  - left. reflexivity.
  - destruct (remaining b =? 0)%nat; [left; reflexivity|]. apply agp_bind; [apply H|apply IH].
Qed.
Lemma agp_loop {X} (s s' : X -> P X) x : (forall y, agp (s y) (s' y)) -> agp (loop_remaining s x) (loop_remaining s' x).
Proof. intros H b. apply agp_while, H. Qed.
Lemma agp_repeat {X} (p p' : P X) n : agp p p' -> agp (repeatP n p) (repeatP n p').
Proof. intros H. induction n as [|n IH]; [apply agp_refl|]. apply agp_bind; [exact H|]. intros x. apply agp_bind; [exact IH|]. intros. apply agp_refl. Qed.
Lemma agp_map {X Y} (f : X -> Y) (p p' : P X) : agp p p' -> agp (pmap f p) (pmap f p').
Proof. intros H. apply agp_bind; [exact H|]. intros. apply agp_refl. Qed.
Lemma agp_framed {X} n (p p' : P X) : agp p p' -> agp (framed n p) (framed n p').
Proof.
  intros H b. unfold framed. destruct (sub_buffer b n) as [sb|e| |]; try (left; reflexivity). destruct (H sb) as [->|(o & B & F)].
  - left. reflexivity.
  - right. exists o. split; [exact B|]. destruct (p sb) as [[x|e| |] b']; cbn in *; try discriminate; exact F.
Qed.
Lemma agr_rfold {X Y} (f f' : X -> Y -> res X) l : (forall x y, agr (f x y) (f' x y)) -> forall x, agr (rfold f l x) (rfold f' l x).
Proof. intros H. induction l as [|y l IH]; intros x; [apply agr_refl|]. apply agr_bind; [apply H|apply IH]. Qed.
Lemma agr_concat {X} (f f' : X -> res bytes) l : (forall x, agr (f x) (f' x)) -> agr (concat_res f l) (concat_res f' l).
Proof.
  intros H. induction l as [|y l IH]; [apply agr_refl|]. apply agr_bind; [apply H|]. intros. apply agr_bind; [apply IH|]. intros. apply agr_refl.
Qed.
Lemma agr_sum {X} (f f' : X -> res nat) l : (forall x, agr (f x) (f' x)) -> agr (sum_res f l) (sum_res f' l).
Proof.
  intros H. induction l as [|y l IH]; [apply agr_refl|]. apply agr_bind; [apply H|]. intros. apply agr_bind; [apply IH|]. intros. apply agr_refl.
Qed.

(** The places where the builds differ. *)
Variables c c' : cfg.
Hypothesis Hmdns : mdns c = mdns c'.
Hypothesis Hadd : forall m x y, agr (uadd c m x y) (uadd c' m x y).
Hypothesis Hsub : forall m x y, agr (usub c m x y) (usub c' m x y).
Hypothesis Hmul : forall m x y, agr (umul c m x y) (umul c' m x y).

Ltac ag := repeat first
  [ apply agr_refl | apply agp_refl | apply Hadd | apply Hsub | apply Hmul
  | apply agr_bind; [|intros] | apply agp_bind; [|intros] | apply agp_lift | apply agp_map | assumption ].

(** Writing. *)
Lemma ag_flush n k bl : agr (flush_block c n k bl) (flush_block c' n k bl).
Proof. unfold flush_block. ag. Qed.
Lemma ag_setbit t n bl : agr (set_type_bit c t n bl) (set_type_bit c' t n bl).
Proof. unfold set_type_bit. ag. Qed.
Lemma ag_enc ts : forall n k bl, agr (types_enc c ts n k bl) (types_enc c' ts n k bl).
Proof.
  induction ts as [|t ts IH]; intros n k bl; cbn [types_enc]; [apply ag_flush|]. apply agr_bind; [apply Hmul|]. intros o.
  apply agr_bind; [apply Hsub|]. intros d. destruct (255 <? d).
  - apply agr_bind; [apply ag_flush|]. intros out. apply agr_bind; [apply Hadd|]. intros bn. apply agr_bind; [apply ag_setbit|]. intros st.
    apply agr_bind; [apply IH|]. intros. apply agr_refl.
  - apply agr_bind; [apply ag_setbit|]. intros st. apply IH.
Qed.
Lemma ag_blocksize n l : agr (block_size c n l) (block_size c' n l).
Proof. unfold block_size. ag. Qed.
Lemma ag_size ts : forall n l, agr (types_size c ts n l) (types_size c' ts n l).
Proof.
  induction ts as [|t ts IH]; intros n l; cbn [types_size]; [apply ag_blocksize|]. apply agr_bind; [apply Hmul|]. intros o.
  apply agr_bind; [apply Hsub|]. intros d. destruct (255 <? d); [|apply IH].
  apply agr_bind; [apply ag_blocksize|]. intros. apply agr_bind; [apply Hadd|]. intros. apply agr_bind; [apply IH|]. intros. apply agr_refl.
Qed.
Lemma ag_rsize d : agr (rdata_byte_size c d) (rdata_byte_size c' d).
Proof.
  destruct d; cbn [rdata_byte_size]; try apply agr_refl.
  - unfold nsec_byte_size, types_byte_size. apply agr_bind; [apply ag_size|]. intros. apply agr_refl.
  - unfold csync_byte_size, types_byte_size. apply agr_bind; [apply ag_size|]. intros. apply agr_refl.
Qed.
Lemma ag_params ps : agr (params_bytes c ps) (params_bytes c' ps).
Proof.
  induction ps as [|p ps IH]; cbn [params_bytes]; [apply agr_refl|]. apply agr_bind; [unfold param_to_bytes; ag|]. intros. apply agr_bind; [exact IH|].
  intros. apply agr_refl.
Qed.
Lemma ag_rbytes d : agr (rdata_to_bytes c d) (rdata_to_bytes c' d).
Proof.
  destruct d; cbn [rdata_to_bytes]; try apply agr_refl.
  - unfold nsec_to_bytes, nsec_byte_size, types_byte_size, types_to_bytes. apply agr_bind.
    + apply agr_bind; [apply ag_size|]. intros. apply agr_refl.
    + intros. apply agr_bind; [apply ag_enc|]. intros. apply agr_refl.
  - unfold csync_to_bytes, csync_byte_size, types_byte_size, types_to_bytes. repeat first [apply ag_enc|apply ag_size|apply agr_refl|apply agr_bind; [|intros]].
  - unfold svcb_to_bytes. apply agr_bind; [apply ag_params|]. intros. apply agr_refl.
Qed.
Lemma ag_rcomp h d m off : agr (rdata_to_bytes_compressed c h d m off) (rdata_to_bytes_compressed c' h d m off).
Proof.
  destruct d; unfold rdata_to_bytes_compressed; try apply agr_refl; try (apply agr_bind; [apply ag_rbytes|]; intros; apply agr_refl).
  unfold nsec_to_bytes_compressed. destruct (fqdn_to_bytes_compressed _ _ _ _). unfold types_to_bytes. apply agr_bind; [apply ag_enc|]. intros. apply agr_refl.
Qed.
Lemma ag_class_field r : rr_class_field c r = rr_class_field c' r.
Proof. unfold rr_class_field. rewrite Hmdns. reflexivity. Qed.
Lemma ag_rrsize r : agr (rr_byte_size c r) (rr_byte_size c' r).
Proof. unfold rr_byte_size. apply agr_bind; [apply ag_rsize|]. intros. apply agr_refl. Qed.
Lemma ag_rr r : agr (rr_to_bytes c r) (rr_to_bytes c' r).
Proof.
  unfold rr_to_bytes. apply agr_bind; [apply ag_rrsize|]. intros. apply agr_bind; [apply ag_rsize|]. intros. apply agr_bind; [apply ag_rbytes|]. intros.
  rewrite ag_class_field. apply agr_refl.
Qed.
Lemma ag_rrc h r m off : agr (rr_to_bytes_compressed c h r m off) (rr_to_bytes_compressed c' h r m off).
Proof.
  unfold rr_to_bytes_compressed. destruct (fqdn_to_bytes_compressed _ _ _ _). rewrite ag_class_field. apply agr_bind; [apply ag_rcomp|]. intros. apply agr_refl.
Qed.
Lemma ag_psize p : agr (packet_byte_size c p) (packet_byte_size c' p).
Proof. unfold packet_byte_size. repeat (apply agr_bind; [apply agr_sum, ag_rrsize|intros]). apply agr_refl. Qed.
Lemma ag_q q : question_to_bytes c q = question_to_bytes c' q.
Proof. unfold question_to_bytes, question_class_field. rewrite Hmdns. reflexivity. Qed.
Lemma ag_pbytes p : agr (packet_to_bytes c p) (packet_to_bytes c' p).
Proof.
  unfold packet_to_bytes. apply agr_bind; [apply ag_psize|]. intros. repeat (apply agr_bind; [apply agr_concat, ag_rr|intros]).
  rewrite (flat_map_ext _ _ ag_q). apply agr_refl.
Qed.
Lemma ag_qs h qs : forall bin m, questions_compressed c h qs bin m = questions_compressed c' h qs bin m.
Proof.
  induction qs as [|q qs IH]; intros bin m; cbn [questions_compressed]; [reflexivity|]. unfold question_to_bytes_compressed, question_class_field. rewrite Hmdns.
  destruct (fqdn_to_bytes_compressed _ _ _ _). apply IH.
Qed.
Lemma ag_rs h rs : forall bin m, agr (records_compressed c h rs bin m) (records_compressed c' h rs bin m).
Proof. induction rs as [|r rs IH]; intros bin m; cbn [records_compressed]; [apply agr_refl|]. apply agr_bind; [apply ag_rrc|]. intros. apply IH. Qed.
Lemma ag_pcomp h p : agr (packet_to_bytes_compressed c h p) (packet_to_bytes_compressed c' h p).
Proof.
  unfold packet_to_bytes_compressed. rewrite ag_qs. destruct (questions_compressed _ _ _ _ _). repeat (apply agr_bind; [apply ag_rs|intros]). apply agr_refl.
Qed.
Lemma ag_sorted bs ds : forall acc, agr (sorted_records c bs ds acc) (sorted_records c' bs ds acc).
Proof.
  induction ds as [|d ds IH]; intros acc; cbn [sorted_records]; [apply agr_refl|]. apply agr_bind; [apply ag_rbytes|]. intros b.
  destruct (_ <? _)%nat; [apply agr_refl|apply IH].
Qed.
Lemma ag_set bs s : agr (rrset_to_bytes c bs s) (rrset_to_bytes c' bs s).
Proof. unfold rrset_to_bytes. apply agr_bind; [apply ag_sorted|]. intros. apply agr_refl. Qed.
Lemma ag_tag k : agr (compute_key_tag c k) (compute_key_tag c' k).
Proof.
  unfold compute_key_tag. apply agr_bind; [|intros; ag]. generalize (dnskey_to_bytes k), true, 0. intros l. induction l as [|x l IH]; intros e acc; cbn [key_tag_sum];
    [apply agr_refl|]. apply agr_bind; [apply Hadd|]. intros. apply IH.
Qed.
Lemma ag_ds x f k d : agr (ds_from_dnskey c x f k d) (ds_from_dnskey c' x f k d).
Proof. unfold ds_from_dnskey. apply agr_bind; [apply ag_tag|]. intros. apply agr_refl. Qed.
Lemma ag_sign x bs seed k s i e key : agr (rrsig_from_dnskey c x bs seed k s i e key) (rrsig_from_dnskey c' x bs seed k s i e key).
Proof.
  unfold rrsig_from_dnskey. apply agr_bind; [apply agr_refl|]. intros. apply agr_bind; [apply agr_refl|]. intros. apply agr_bind; [apply ag_tag|]. intros.
  unfold calculate_signature. apply agr_bind; [apply ag_set|]. intros. apply agr_refl.
Qed.
Lemma ag_verify x bs r k s : agr (rrsig_verify c x bs r k s) (rrsig_verify c' x bs r k s).
Proof.
  unfold rrsig_verify. destruct (negb _); [apply agr_refl|]. apply agr_bind; [|intros; apply agr_refl]. unfold verify_input. apply agr_bind; [apply ag_set|].
  intros. apply agr_refl.
Qed.
Lemma ag_keys ds : agr (with_keys c ds) (with_keys c' ds).
Proof.
  induction ds as [|d ds IH]; cbn [with_keys]; [apply agr_refl|]. apply agr_bind; [apply ag_rbytes|]. intros. apply agr_bind; [exact IH|]. intros. apply agr_refl.
Qed.
Lemma ag_reorder s : agr (canonical_reorder c s) (canonical_reorder c' s).
Proof. unfold canonical_reorder. destruct (_ <? _)%nat; [apply agr_refl|]. apply agr_bind; [apply ag_keys|]. intros. apply agr_refl. Qed.

Lemma ag_run k p : agr (run c k p) (run c' k p).
Proof. destruct k as [| | |[]|[]|[]| | | |]; unfold run; try apply agr_refl; (apply agr_bind; [apply Hadd|]; intros; apply agr_refl). Qed.
Lemma ag_history ks : forall p, agr (history c ks p) (history c' ks p).
Proof. induction ks as [|k ks IH]; intros p; cbn [history]; [apply agr_refl|]. apply agr_bind; [apply ag_run|]. intros. apply IH. Qed.

(** Reading. *)
Hypothesis Hrt : forall n, agr (rtype_try_from c n) (rtype_try_from c' n).
Hypothesis Hqt : forall n, agr (qtype_try_from c n) (qtype_try_from c' n).

Lemma ag_octet w i o acc : agr (octet_types c w i o acc) (octet_types c' w i o acc).
Proof.
  unfold octet_types. apply agr_rfold. intros x y. destruct (bit_is_set o y); [|apply agr_refl]. apply agr_bind; [apply Hmul|]. intros.
  apply agr_bind; [apply Hmul|]. intros. apply agr_bind; [apply Hadd|]. intros. apply agr_bind; [apply Hadd|]. intros. apply agr_bind; [apply Hrt|]. intros. apply agr_refl.
Qed.
Lemma ag_bitmap w bm : forall i acc, agr (bitmap_types c w i bm acc) (bitmap_types c' w i bm acc).
Proof. induction bm as [|o bm IH]; intros i acc; cbn [bitmap_types]; [apply agr_refl|]. apply agr_bind; [apply ag_octet|]. intros. apply IH. Qed.
Lemma ag_types : agp (types_try_from c) (types_try_from c').
Proof.
  unfold types_try_from. apply agp_loop. intros acc. unfold window_step. apply agp_bind; [apply agp_refl|]. intros. apply agp_bind; [apply agp_refl|]. intros.
  apply agp_bind; [apply agp_refl|]. intros. apply agp_lift, ag_bitmap.
Qed.
Lemma ag_mandatory : forall fuel len acc, agp (mandatory_loop c fuel len acc) (mandatory_loop c' fuel len acc).
Proof.
  induction fuel as [|f IH]; intros len acc b; cbn [mandatory_loop].
  - left. reflexivity.
  - destruct (len =? 0); [left; reflexivity|]. apply agp_bind; [apply agp_refl|]. intros. apply agp_bind; [apply agp_lift, Hsub|]. intros. apply IH.
Qed.
Lemma ag_alpn : forall fuel len acc, agp (alpn_loop c fuel len acc) (alpn_loop c' fuel len acc).
Proof.
  induction fuel as [|f IH]; intros len acc b; cbn [alpn_loop].
  - left. reflexivity.
  - destruct (len =? 0); [left; reflexivity|]. apply agp_bind; [apply agp_refl|]. intros. apply agp_bind; [apply agp_refl|]. intros.
    apply agp_bind; [apply agp_lift, Hsub|]. intros. apply IH.
Qed.
Lemma ag_param : agp (param_try_from c) (param_try_from c').
Proof.
  unfold param_try_from. apply agp_bind; [apply agp_refl|]. intros k. apply agp_bind; [apply agp_refl|]. intros len. destruct k; try apply agp_refl.
  - apply (agp_at (fun b => _) (fun b => _)). intros b. apply agp_bind; [apply ag_mandatory|]. intros. apply agp_refl.
  - apply (agp_at (fun b => _) (fun b => _)). intros b. apply agp_bind; [apply ag_alpn|]. intros. apply agp_refl.
Qed.
Lemma ag_step acc : agp (param_step c acc) (param_step c' acc).
Proof.
  intros b. unfold param_step. destruct (sub_buffer b (remaining b)) as [sb|e| |]; try (left; reflexivity). destruct (ag_param sb) as [->|(o & B & F)].
  - left. reflexivity.
  - right. exists o. split; [exact B|]. destruct (param_try_from c sb) as [[x|e| |] b']; cbn in *; try discriminate; exact F.
Qed.
Lemma ag_rdata t : agp (rdata_from c t) (rdata_from c' t).
Proof.
  destruct t; unfold rdata_from; try apply agp_refl; apply agp_map.
  - unfold rrsig_try_from. apply agp_bind; [|intros; apply agp_refl]. unfold extract_u16_as. apply agp_bind; [apply agp_refl|]. intros. apply agp_lift, Hrt.
  - unfold nsec_try_from. apply agp_bind; [apply agp_refl|]. intros. apply agp_bind; [apply ag_types|]. intros. apply agp_refl.
  - unfold csync_try_from. apply agp_bind; [apply agp_refl|]. intros. apply agp_bind; [apply agp_refl|]. intros. apply agp_bind; [apply ag_types|]. intros. apply agp_refl.
  - unfold svcb_try_from. apply agp_bind; [apply agp_refl|]. intros. apply agp_bind; [apply agp_refl|]. intros. apply agp_bind; [apply agp_loop, ag_step|]. intros. apply agp_refl.
Qed.
Lemma ag_rr_try : agp (rr_try_from c) (rr_try_from c').
Proof.
  unfold rr_try_from. apply agp_bind; [apply agp_refl|]. intros. apply agp_bind; [apply agp_bind; [apply agp_refl|]; intros; apply agp_lift, Hrt|]. intros.
  apply agp_bind; [apply agp_refl|]. intros. apply agp_bind; [apply agp_refl|]. intros. apply agp_bind; [apply agp_refl|]. intros.
  apply agp_bind; [apply agp_framed, ag_rdata|]. intros. unfold rr_class_field_parse. rewrite Hmdns. apply agp_refl.
Qed.
Lemma ag_q_try : agp (question_try_from c) (question_try_from c').
Proof.
  unfold question_try_from. apply agp_bind; [apply agp_refl|]. intros. apply agp_bind; [apply agp_bind; [apply agp_refl|]; intros; apply agp_lift, Hqt|]. intros.
  rewrite Hmdns. apply agp_refl.
Qed.
Lemma ag_packet d : agr (packet_try_from c d) (packet_try_from c' d).
Proof.
  assert (H : agp (packet_try_from_buf c) (packet_try_from_buf c')).
  { unfold packet_try_from_buf. apply agp_bind; [apply agp_refl|]. intros. apply agp_bind; [apply agp_repeat, ag_q_try|]. intros.
    repeat (apply agp_bind; [apply agp_repeat, ag_rr_try|]; intros). apply agp_refl. }
  unfold packet_try_from. destruct (H (buf_from d)) as [->|F]; [left; reflexivity|right; exact F].
Qed.
End Two.

(** ** Debug and release *)
Definition is_panic (o : outcome) : Prop := o = OPanic.
Lemma agr_panic {X} (r r' : res X) : agr is_panic r r' -> same_unless_panic r r'.
Proof. intros [H|(o & -> & H)]; [left; exact H|right]. destruct r; cbn in H; congruence. Qed.
Lemma dr_add c m x y : agr is_panic (uadd (debug c) m x y) (uadd (release c) m x y).
Proof. unfold uadd. destruct (_ <? m); [apply agr_refl|]. right. exists OPanic. split; reflexivity. Qed.
Lemma dr_sub c m x y : agr is_panic (usub (debug c) m x y) (usub (release c) m x y).
Proof. unfold usub. destruct (_ <=? x); [apply agr_refl|]. right. exists OPanic. split; reflexivity. Qed.
Lemma dr_mul c m x y : agr is_panic (umul (debug c) m x y) (umul (release c) m x y).
Proof. unfold umul. destruct (_ <? m); [apply agr_refl|]. right. exists OPanic. split; reflexivity. Qed.

(** ** Without and with DNSSEC *)
Definition is_dnssec (o : outcome) : Prop := exists n, In n [43; 46; 47; 48] /\ o = OErr (InvalidType n).
Lemma agr_dnssec {X} (r r' : res X) : agr is_dnssec r r' -> same_unless_dnssec r r'.
Proof. intros [H|(o & (n & I & ->) & H)]; [left; exact H|right; exists n; split; [exact I|]]. destruct r; cbn in H; congruence. Qed.
Definition never (o : outcome) : Prop := False.
Lemma agr_never {X} (r r' : res X) : agr never r r' -> r = r'.
Proof. intros [H|(o & [] & H)]; exact H. Qed.
Lemma agp_never {X} (p p' : P X) : agp never p p' -> forall b, p b = p' b.
Proof. intros H b. destruct (H b) as [E|(o & [] & _)]; exact E. Qed.
Lemma assoc_map {X Y} (f : X -> Y) n t : assoc n (map (fun p => (fst p, f (snd p))) t) = option_map f (assoc n t).
Proof. induction t as [|[k x] t IH]; [reflexivity|]. cbn [map assoc fst snd]. destruct (n =? k); [reflexivity|exact IH]. Qed.
Lemma assoc_app {X} n (t u : list (N * X)) : assoc n (t ++ u) = match assoc n t with Some x => Some x | None => assoc n u end.
Proof. induction t as [|[k x] t IH]; [reflexivity|]. cbn [app assoc]. destruct (n =? k); [reflexivity|exact IH]. Qed.
Lemma sd_rtype c n : agr is_dnssec (rtype_try_from (without_dnssec c) n) (rtype_try_from (with_dnssec c) n).
Proof.
  destruct (in_dec N.eq_dec n [43; 46; 47; 48]) as [I|I].
  - right. exists (OErr (InvalidType n)). split; [exists n; auto|]. destruct I as [<-|[<-|[<-|[<-|[]]]]]; reflexivity.
  - left. unfold rtype_try_from, rtype_table, without_dnssec, with_dnssec. cbn [dnssec]. rewrite !assoc_app. cbn [In] in I.
    replace (assoc n [(43, DS)]) with (@None rtype); [replace (assoc n [(46, RRSIG); (47, NSEC); (48, DNSKEY)]) with (@None rtype); [reflexivity|]|];
      cbn [assoc]; repeat match goal with |- context [n =? ?k] => destruct (N.eqb_spec n k); [subst; exfalso; apply I; auto|] end; reflexivity.
Qed.
Lemma sd_qtype c n : agr is_dnssec (qtype_try_from (without_dnssec c) n) (qtype_try_from (with_dnssec c) n).
Proof.
  destruct (sd_rtype c n) as [E|(o & (k & I & ->) & E)].
  - left. unfold rtype_try_from, qtype_try_from, qtype_table in *. rewrite !assoc_app, !assoc_map.
    destruct (assoc n (rtype_table (without_dnssec c))), (assoc n (rtype_table (with_dnssec c))); cbn in *; congruence.
  - right. exists (OErr (InvalidType k)). split; [exists k; auto|]. unfold rtype_try_from, qtype_try_from, qtype_table in *. rewrite assoc_app, assoc_map.
    destruct (assoc n (rtype_table (without_dnssec c))); cbn in E; [discriminate|]. injection E as ->. cbn [option_map].
    destruct I as [<-|[<-|[<-|[<-|[]]]]]; reflexivity.
Qed.

(** ** Without and with mDNS *)
Definition img {X Y} (f : X -> Y) (p : P X) (p' : P Y) : Prop := forall b, p' b = (on_ok f (fst (p b)), snd (p b)).
Lemma img_bind {X X' Y Y'} (f : X -> X') (g : Y -> Y') p p' (k : X -> P Y) k' : img f p p' -> (forall x, img g (k x) (k' (f x))) -> img g (bind p k) (bind p' k').
Proof.
  intros H K b. unfold bind. rewrite H. destruct (p b) as [[x|e| |] b']; cbn [fst snd on_ok]; try reflexivity. apply K.
Qed.
Lemma img_bind1 {X Y Y'} (g : Y -> Y') (p p' : P X) (k : X -> P Y) k' : (forall b, p b = p' b) -> (forall x, img g (k x) (k' x)) -> img g (bind p k) (bind p' k').
Proof. intros H K b. unfold bind. rewrite H. destruct (p' b) as [[x|e| |] b']; cbn [fst snd on_ok]; try reflexivity. apply K. Qed.
Lemma img_ret {X Y} (f : X -> Y) x y : y = f x -> img f (ret x) (ret y).
Proof. intros -> b. reflexivity. Qed.
Lemma img_repeat {X Y} (f : X -> Y) p p' n : img f p p' -> img (map f) (repeatP n p) (repeatP n p').
Proof.
  intros H. induction n as [|n IH]; cbn [repeatP]; [apply img_ret; reflexivity|]. eapply img_bind; [exact H|]. intros x. eapply img_bind; [exact IH|].
  intros xs. apply img_ret. reflexivity.
Qed.
Lemma mask_low v : N.land v 32767 = v mod 32768.
Proof. change 32767 with (N.ones 15). rewrite N.land_ones. reflexivity. Qed.
Lemma wm_question c : img plain_question (question_try_from (with_mdns c)) (question_try_from (without_mdns c)).
Proof.
  unfold question_try_from. cbn [mdns with_mdns without_mdns]. apply img_bind1; [reflexivity|]. intros f. apply img_bind1; [reflexivity|]. intros t.
  intros b. unfold extract_u16_as, bind. destruct (extract_u16 b) as [[v|e| |] b']; try reflexivity. unfold lift.
  destruct (negb _).
  - rewrite (qclass_low v), mask_low. destruct (qclass_try_from (v mod 32768)); reflexivity.
  - destruct (qclass_try_from v); reflexivity.
Qed.
Lemma wm_record c : img plain_record (rr_try_from (with_mdns c)) (rr_try_from (without_mdns c)).
Proof.
  unfold rr_try_from. do 5 (apply img_bind1; [reflexivity|]; intros). apply img_bind1.
  - apply agp_never. apply agp_framed. apply ag_rdata; intros; apply agr_refl.
  - intros d. apply img_ret. unfold plain_record, rr_class_field_parse. cbn [mdns with_mdns without_mdns]. destruct (negb _); cbn [fst snd rr_name rr_type rr_class rr_ttl rr_data]; [|reflexivity].
    rewrite (rclass_low x1), mask_low. reflexivity.
Qed.
Lemma wm_packet c d : packet_try_from (without_mdns c) d = on_ok plain_packet (packet_try_from (with_mdns c) d).
Proof.
  assert (H : img plain_packet (packet_try_from_buf (with_mdns c)) (packet_try_from_buf (without_mdns c))).
  { unfold packet_try_from_buf. apply img_bind1; [reflexivity|]. intros h. eapply img_bind; [apply img_repeat, wm_question|]. intros.
    do 3 (eapply img_bind; [apply img_repeat, wm_record|]; intros). apply img_ret. reflexivity. }
  unfold packet_try_from. rewrite H. reflexivity.
Qed.
Lemma concat_ext {X Y} (f : X -> res bytes) (g : Y -> res bytes) (k : X -> Y) l : (forall x, f x = g (k x)) -> concat_res f l = concat_res g (map k l).
Proof. intros H. induction l as [|x l IH]; [reflexivity|]. cbn [map concat_res]. rewrite H, IH. reflexivity. Qed.
Lemma sum_ext {X Y} (f : X -> res nat) (g : Y -> res nat) (k : X -> Y) l : (forall x, f x = g (k x)) -> sum_res f l = sum_res g (map k l).
Proof. intros H. induction l as [|x l IH]; [reflexivity|]. cbn [map sum_res]. rewrite H, IH. reflexivity. Qed.
Lemma wm_rsize c d : rdata_byte_size (without_mdns c) d = rdata_byte_size (with_mdns c) d.
Proof. apply agr_never, ag_rsize; intros; apply agr_refl. Qed.
Lemma wm_rbytes c d : rdata_to_bytes (without_mdns c) d = rdata_to_bytes (with_mdns c) d.
Proof. apply agr_never, ag_rbytes; intros; apply agr_refl. Qed.
Lemma wm_rcomp c h d m off : rdata_to_bytes_compressed (without_mdns c) h d m off = rdata_to_bytes_compressed (with_mdns c) h d m off.
Proof. apply agr_never, ag_rcomp; intros; apply agr_refl. Qed.
Lemma wm_rrsize c r : rr_byte_size (without_mdns c) r = rr_byte_size (with_mdns c) (plain_record r).
Proof. unfold rr_byte_size. rewrite wm_rsize. reflexivity. Qed.
Lemma wm_rr c r : rr_to_bytes (without_mdns c) r = rr_to_bytes (with_mdns c) (plain_record r).
Proof. unfold rr_to_bytes. rewrite wm_rrsize, wm_rsize, wm_rbytes. reflexivity. Qed.
Lemma wm_rrc c h r m off : rr_to_bytes_compressed (without_mdns c) h r m off = rr_to_bytes_compressed (with_mdns c) h (plain_record r) m off.
Proof. unfold rr_to_bytes_compressed. cbn [plain_record rr_name]. destruct (fqdn_to_bytes_compressed _ _ _ _). rewrite wm_rcomp. reflexivity. Qed.
Lemma wm_psize c p : packet_byte_size (without_mdns c) p = packet_byte_size (with_mdns c) (plain_packet p).
Proof.
  unfold packet_byte_size. cbn [plain_packet p_questions p_answers p_authorities p_additionals]. rewrite !(sum_ext _ _ _ _ (wm_rrsize c)).
  replace (fold_right _ _ (map plain_question (p_questions p))) with (fold_right (fun q k => (question_byte_size q + k)%nat) 0%nat (p_questions p)); [reflexivity|].
  induction (p_questions p) as [|q l IH]; [reflexivity|]. cbn [map fold_right]. rewrite IH. reflexivity.
Qed.
Lemma wm_pbytes c p : packet_to_bytes (without_mdns c) p = packet_to_bytes (with_mdns c) (plain_packet p).
Proof.
  unfold packet_to_bytes. rewrite wm_psize. cbn [plain_packet p_questions p_answers p_authorities p_additionals]. rewrite !(concat_ext _ _ _ _ (wm_rr c)).
  replace (flat_map _ (map plain_question (p_questions p))) with (flat_map (question_to_bytes (without_mdns c)) (p_questions p)).
  - unfold patched_header. cbn [plain_packet p_header p_questions p_answers p_authorities p_additionals]. rewrite !map_length. reflexivity.
  - induction (p_questions p) as [|q l IH]; [reflexivity|]. cbn [map flat_map]. rewrite IH. reflexivity.
Qed.
Lemma wm_qs c h qs : forall bin m, questions_compressed (without_mdns c) h qs bin m = questions_compressed (with_mdns c) h (map plain_question qs) bin m.
Proof.
  induction qs as [|q qs IH]; intros bin m; [reflexivity|]. cbn [map questions_compressed]. unfold question_to_bytes_compressed, question_class_field.
  cbn [mdns with_mdns without_mdns plain_question q_unicast q_name q_type q_class]. destruct (fqdn_to_bytes_compressed _ _ _ _). apply IH.
Qed.
Lemma wm_rs c h rs : forall bin m, records_compressed (without_mdns c) h rs bin m = records_compressed (with_mdns c) h (map plain_record rs) bin m.
Proof.
  induction rs as [|r rs IH]; intros bin m; [reflexivity|]. cbn [map records_compressed]. rewrite wm_rrc. destruct (rr_to_bytes_compressed _ _ _ _ _); try reflexivity. apply IH.
Qed.
Lemma wm_pcomp c h p : packet_to_bytes_compressed (without_mdns c) h p = packet_to_bytes_compressed (with_mdns c) h (plain_packet p).
Proof.
  unfold packet_to_bytes_compressed. cbn [plain_packet p_questions p_answers p_authorities p_additionals p_header]. rewrite wm_qs.
  destruct (questions_compressed _ _ _ _ _). rewrite wm_rs. destruct (records_compressed _ _ _ _ _) as [[? ?]| | |]; try reflexivity. cbn [rbind].
  rewrite wm_rs. destruct (records_compressed _ _ _ _ _) as [[? ?]| | |]; try reflexivity. cbn [rbind]. rewrite wm_rs. reflexivity.
Qed.

(** ** Exactly which packets a build without DNSSEC reads *)
Lemma dnssec_number t : dnssec_only t = true <-> In (rtype_code t) dnssec_numbers.
Proof. destruct t; cbn; split; intros H; try reflexivity; try discriminate; intuition (try discriminate); auto 8. Qed.
Lemma decodable_without c t : decodable (without_dnssec c) t <-> decodable (with_dnssec c) t /\ ~ In (rtype_code t) dnssec_numbers.
Proof.
  unfold decodable, rtype_exists. cbn [dnssec with_dnssec without_dnssec orb]. rewrite <- dnssec_number. destruct (dnssec_only t); cbn; intuition congruence.
Qed.
Lemma bit_without c n t : bit_means (without_dnssec c) n t <-> bit_means (with_dnssec c) n t /\ ~ In (rtype_code t) dnssec_numbers.
Proof. unfold bit_means. rewrite decodable_without. cbn [ovf with_dnssec without_dnssec]. tauto. Qed.
Definition free (ts : list rtype) : Prop := forall t, In t ts -> ~ In (rtype_code t) dnssec_numbers.
Lemma free_app a b : free (a ++ b) <-> free a /\ free b.
Proof.
  unfold free. split.
  - intros H. split; intros t I; apply H, in_or_app; auto.
  - intros [H G] t I. apply in_app_or in I as [I|I]; auto.
Qed.
Lemma free_nil : free [].
Proof. intros t []. Qed.
Lemma bitmaps_without d c ts p e : bitmaps d (without_dnssec c) ts p e <-> bitmaps d (with_dnssec c) ts p e /\ free ts.
Proof.
  unfold bitmaps. split.
  - intros (ws & W & A & S & I & E). split.
    + exists ws. split; [exact W|]. split; [intros n M; destruct (A n M) as [t T]; exists t; apply bit_without in T; apply T|]. split; [exact S|]. split; [|exact E].
      intros t. rewrite I. split; intros (n & M & T); exists n; (split; [exact M|]).
      * apply bit_without in T. apply T.
      * destruct (A n M) as [t' T']. replace t with t'; [exact T'|]. apply bit_without in T' as [T' _].
        destruct T as (D & T & _), T' as (D' & T' & _). destruct t, t'; cbn in T, T'; congruence.
    + intros t T. apply I in T as (n & _ & T). apply bit_without in T. apply T.
  - intros [(ws & W & A & S & I & E) F]. exists ws. split; [exact W|].
    assert (K : forall n t, marked ws n -> bit_means (with_dnssec c) n t -> bit_means (without_dnssec c) n t).
    { intros n t M T. apply bit_without. split; [exact T|]. apply F, I. exists n. auto. }
    split; [intros n M; destruct (A n M) as [t T]; exists t; apply K; assumption|]. split; [exact S|]. split; [|exact E].
    intros t. rewrite I. split; intros (n & M & T); exists n; (split; [exact M|]); [apply K; assumption|apply bit_without in T; apply T].
Qed.
Lemma laid_ext f g qs p e : (forall p e, f p e <-> g p e) -> laid (f :: qs) p e <-> laid (g :: qs) p e.
Proof. intros H. cbn [laid]. split; intros (m & A & B); exists m; (split; [apply H, A|exact B]). Qed.
Lemma pieces_without d c x p e : laid (pieces d (without_dnssec c) x) p e <-> laid (pieces d (with_dnssec c) x) p e /\ free (types_in_data x).
Proof.
  destruct x; cbn [pieces types_in_data]; try (split; [intros H; split; [exact H|apply free_nil]|intros [H _]; exact H]).
  - cbn [laid]. split.
    + intros (m & [D A] & B). apply decodable_without in D as [D F]. split; [exists m; auto|]. intros t [<-|[]]. exact F.
    + intros [(m & [D A] & B) F]. exists m. split; [|exact B]. split; [apply decodable_without; split; [exact D|apply F; left; reflexivity]|exact A].
  - cbn [laid]. split.
    + intros (m & A & (k & B & E)). apply bitmaps_without in B as [B F]. split; [exists m; split; [exact A|exists k; auto]|exact F].
    + intros [(m & A & (k & B & E)) F]. exists m. split; [exact A|]. exists k. split; [apply bitmaps_without; auto|exact E].
  - cbn [laid]. split.
    + intros (m & A & (k & B & (l & C & E))). apply bitmaps_without in C as [C F]. split; [exists m; split; [exact A|exists k; split; [exact B|exists l; auto]]|exact F].
    + intros [(m & A & (k & B & (l & C & E))) F]. exists m. split; [exact A|]. exists k. split; [exact B|]. exists l. split; [apply bitmaps_without; auto|exact E].
Qed.
Definition qtypes (q : question) : list rtype := match q_type q with QT t => [t] | _ => [] end.
Definition rtypes (r : rr) : list rtype := rr_type r :: types_in_data (rr_data r).
Lemma question_without c d p q e : question_at (without_dnssec c) d p q e <-> question_at (with_dnssec c) d p q e /\ free (qtypes q).
Proof.
  unfold question_at, qtypes. cbn [top_bit mdns with_dnssec without_dnssec]. assert (H : qdecodable (without_dnssec c) (q_type q) <-> qdecodable (with_dnssec c) (q_type q) /\
    free (match q_type q with QT t => [t] | _ => [] end)).
  { destruct (q_type q) as [t| | | |]; cbn [qdecodable]; try (split; [intros _; split; [exact I|apply free_nil]|tauto]). rewrite decodable_without.
    split; intros [A B]; (split; [exact A|]); [intros t' [<-|[]]; exact B|apply B; left; reflexivity]. }
  unfold top_bit. cbn [mdns with_dnssec without_dnssec]. split.
  - intros (k & v & A & B & C & D). apply H in C as [C F]. split; [exists k, v; tauto|exact F].
  - intros [(k & v & A & B & C & D) F]. exists k, v. tauto.
Qed.
Lemma record_without c d p r e : record_on_wire (without_dnssec c) d p r e <-> record_on_wire (with_dnssec c) d p r e /\ free (rtypes r).
Proof.
  unfold record_on_wire, rtypes, top_bit, data_at. cbn [mdns with_dnssec without_dnssec]. split.
  - intros (k & v & len & A & B & C & D & E & F & G & H & I & J & K & L & (m & M & N)). apply decodable_without in C as [C O]. apply pieces_without in N as [N Q].
    split.
    + exists k, v, len. repeat (split; [assumption|]). exists m. auto.
    + intros t [<-|T]; [exact O|apply Q, T].
  - intros [(k & v & len & A & B & C & D & E & F & G & H & I & J & K & L & (m & M & N)) Fr]. exists k, v, len. split; [exact A|]. split; [exact B|].
    split; [apply decodable_without; split; [exact C|apply Fr; left; reflexivity]|]. repeat (split; [assumption|]). exists m. split; [exact M|].
    apply pieces_without. split; [exact N|]. intros t T. apply Fr. right. exact T.
Qed.
Lemma consecutive_without {X} (f g : nat -> X -> nat -> Prop) (ts : X -> list rtype) : (forall p x e, f p x e <-> g p x e /\ free (ts x)) ->
  forall xs p e, consecutive f p xs e <-> consecutive g p xs e /\ free (flat_map ts xs).
Proof.
  intros H. induction xs as [|x xs IH]; intros p e; cbn [flat_map].
  - split; [intros C; inversion C; subst; split; [constructor|apply free_nil]|intros [C _]; inversion C; subst; constructor].
  - rewrite free_app. split.
    + intros C. inversion C as [|? ? ? ? ? E L T]; subst. apply IH in T as [A B]. apply H in E as [A' B']. split; [econstructor; eassumption|auto].
    + intros [C [A B]]. inversion C; subst. econstructor; [apply H; split; eassumption|assumption|]. apply IH. auto.
Qed.
Lemma packet_without c d p e : packet_on_wire (without_dnssec c) d p e <-> packet_on_wire (with_dnssec c) d p e /\ free (types_in p).
Proof.
  unfold packet_on_wire, types_in. change (fun q => match q_type q with QT t => [t] | _ => [] end) with qtypes.
  change (fun r => rr_type r :: types_in_data (rr_data r)) with rtypes. rewrite !flat_map_app, !free_app.
  pose proof (consecutive_without _ _ _ (question_without c d)) as Q. pose proof (consecutive_without _ _ _ (record_without c d)) as R. split.
  - intros (A & B & C & D & E & e1 & e2 & e3 & F & G & H & I). rewrite Q in F. rewrite R in G, H, I. split; [|tauto]. repeat (split; [assumption|]). exists e1, e2, e3. tauto.
  - intros [(A & B & C & D & E & e1 & e2 & e3 & F & G & H & I) K]. repeat (split; [assumption|]). exists e1, e2, e3. rewrite Q, !R. tauto.
Qed.
