(** * For C111: records without data, as dynamic updates carry them (RFC 2136 2.4, 2.5). *)
From Coq Require Import Lia ZifyBool ZifyNat ZifyN.
From Verif Require Import Base Buffer Fqdn Header Types Bitmap RDataBasic Svcb RDataSec RData Packet BaseFacts BufferFacts FqdnFacts HeaderSpec HeaderFacts CodeSpec RDataSpec RDataReads RDataFacts RecordSpec RecordFacts PacketFacts CodeFacts UpdateSpec.

Lemma empty_bytes n w : (0 < n)%nat -> extract_bytes n (mkbuf w (length w)) = (Err LengthViolation, mkbuf w (length w)).
Proof. intros H. unfold extract_bytes. cbn [data pos]. destruct (Nat.ltb_spec (length w) (length w + n)); [reflexivity|lia]. Qed.

Lemma empty_fqdn w : extract_fqdn (mkbuf w (length w)) = (Panic, mkbuf w (length w)).
Proof.
  unfold extract_fqdn, fqdn_fuel. cbn [data pos]. replace (2 * length w + 3)%nat with (S (2 * length w + 2)) by lia. cbn [fqdn_loop].
  rewrite (proj2 (nth_error_None w (length w))) by lia. reflexivity.
Qed.
Lemma empty_rest {A} (step : A -> P A) a w : loop_remaining step a (mkbuf w (length w)) = (Ok a, mkbuf w (length w)).
Proof.
  unfold loop_remaining, remaining. cbn [data pos]. rewrite Nat.sub_diag. cbn [while_remaining]. unfold remaining. cbn [data pos]. rewrite Nat.sub_diag. reflexivity.
Qed.
Lemma empty_data c T w : fst (rdata_from c T (mkbuf w (length w))) = without_data T.
Proof.
  destruct T; cbn [rdata_from without_data]; unfold pmap.
  all: unfold a_try_from, name_try_from, soa_try_from, opaque_try_from, wks_try_from, hinfo_try_from, minfo_try_from, mx_try_from, txt_try_from, aaaa_try_from, loc_try_from, srv_try_from, naptr_try_from, opt_try_from, apl_try_from, ds_try_from, sshfp_try_from, ipseckey_try_from, rrsig_try_from, nsec_try_from, dnskey_try_from, dhcid_try_from, tlsa_try_from, hip_try_from, csync_try_from, svcb_try_from, eui48_try_from, eui64_try_from, tkey_try_from, tsig_try_from, uri_try_from, caa_try_from, extract_u8_as, extract_u16_as, extract_character_string, extract_u8, extract_u16, extract_u32, extract_rest, bind.
  all: try (rewrite empty_bytes by lia; reflexivity).
  all: try (rewrite empty_fqdn; reflexivity).
  all: try (rewrite empty_rest; reflexivity).
  all: try (unfold remaining, extract_bytes; cbn [data pos]; rewrite Nat.sub_diag, Nat.add_0_r, Nat.ltb_irrefl; cbn [fst ret]; rewrite ?firstn_O; reflexivity).
Qed.

(** [ends pre suf p bs r]: started just before [bs] in [pre ++ bs ++ suf], the parser [p] returns [r]. *)
Definition ends {A} (pre suf : bytes) (p : P A) (bs : bytes) (r : res A) : Prop := fst (p (mkbuf (pre ++ bs ++ suf) (length pre))) = r.

(** Outcomes that are not values. *)
Definition carries {A B} (r : res A) (s : res B) : Prop :=
  match r, s with Err e, Err e' => e = e' | Panic, Panic => True | Diverge, Diverge => True | _, _ => False end.

Section Ends.
Local Transparent reads.
Lemma ends_bind {A B} pre suf (p : P A) (f : A -> P B) b1 b2 a r :
  reads pre (b2 ++ suf) p b1 a -> ends (pre ++ b1) suf (f a) b2 r -> ends pre suf (bind p f) (b1 ++ b2) r.
Proof.
  unfold reads, ends, bind. intros R E. rewrite <- !app_assoc. rewrite R. rewrite app_length in E. rewrite <- !app_assoc in E. exact E.
Qed.
Lemma reads_ends {A} pre suf (p : P A) bs v : reads pre suf p bs v -> ends pre suf p bs (Ok v).
Proof. unfold reads, ends. intros ->. reflexivity. Qed.
End Ends.
Lemma ends_first {A B} pre suf (p : P A) (f : A -> P B) bs r s : ends pre suf p bs r -> carries r s -> ends pre suf (bind p f) bs s.
Proof.
  unfold ends, bind. destruct (p _) as [[a|e| |] b]; cbn [fst]; intros <-; destruct s; cbn [carries]; intros C; try contradiction; cbn [fst]; congruence.
Qed.
Lemma ends_after {A} pre suf (p : P A) b1 b2 r : ends pre (b2 ++ suf) p b1 r -> ends pre suf p (b1 ++ b2) r.
Proof. unfold ends. rewrite <- app_assoc. exact (fun H => H). Qed.

Lemma ends_framed c T pre suf r : without_data T = r -> ends pre suf (framed 0 (rdata_from c T)) [] r.
Proof.
  intros E. unfold ends, framed, sub_buffer. cbn [data pos app]. rewrite Nat.add_0_r.
  replace (length (pre ++ suf) <? length pre)%nat with false by (symmetry; apply Nat.ltb_ge; rewrite app_length; lia).
  rewrite firstn_app, Nat.sub_diag, firstn_all, firstn_O, app_nil_r.
  pose proof (empty_data c T pre) as D. destruct (rdata_from c T _) as [[a|e| |] b]; cbn [fst] in *; try congruence.
  rewrite <- E, <- D. unfold bind, advance. cbn [data pos]. rewrite Nat.add_0_r.
  replace (length (pre ++ suf) <? length pre)%nat with false by (symmetry; apply Nat.ltb_ge; rewrite app_length; lia).
  reflexivity.
Qed.

(** The record such an entry is read as, if it is read. *)
Definition no_data_read (f : fqdn) (T : rtype) (v : N) : res rr :=
  match without_data T with
  | Ok d => Ok (mkRR f T false (UdpPayloadSize v) 0 d)
  | Err e => Err e | Panic => Panic | Diverge => Diverge
  end.

Lemma no_data_ends c T f v pre suf : fqdn_ok f -> decodable c T -> v = 254 \/ v = 255 ->
  ends pre suf (rr_try_from c) (no_data f (rtype_code T) v) (no_data_read f T v).
Proof.
  intros F D V. unfold rr_try_from, no_data.
  eapply ends_bind; [apply reads_fqdn, F|].
  eapply ends_bind; [exact (reads_u16_dom _ _ _ _ _ _ T (rtype_faithful c) D)|].
  eapply ends_bind; [apply reads_u16; lia|].
  eapply ends_bind; [apply reads_bytes, be_length|].
  rewrite <- (app_nil_r (be 2 0)).
  eapply ends_bind; [apply reads_u16; lia|].
  change (N.to_nat 0) with 0%nat.
  pose proof (ends_framed c T (((((pre ++ fqdn_to_bytes f) ++ be 2 (rtype_code T)) ++ be 2 v) ++ be 4 0) ++ be 2 0) suf _ eq_refl) as E.
  unfold no_data_read.
  destruct (without_data T) as [d|e| |] eqn:W; [|eapply ends_first; [exact E|reflexivity || exact I]..].
  replace (snd (rr_class_field_parse c v)) with false by (destruct c as [[] ? ?], V; subst v; reflexivity).
  replace (fst (rr_class_field_parse c v)) with (UdpPayloadSize v) by (destruct c as [[] ? ?], V; subst v; reflexivity).
  rewrite unbe_be by reflexivity.
  unfold ends, bind in *. destruct (framed _ _ _) as [[a|e| |] b]; cbn [fst] in E; try discriminate. injection E as ->. reflexivity.
Qed.

(** Some entries that are read, then one that is not. *)
Lemma ends_repeat {A} (p : P A) : forall bss vs pre suf b n r s,
  Forall2 (fun bs v => forall pre suf, reads pre suf p bs v) bss vs -> (length vs < n)%nat ->
  (forall pre, ends pre suf p b r) -> carries r s -> ends pre suf (repeatP n p) (concat bss ++ b) s.
Proof.
  induction bss as [|b1 bss IH]; intros vs pre suf b n r s F L E C; inversion F; subst; (destruct n as [|n]; [cbn in L; lia|]); cbn [repeatP concat app].
  - eapply ends_first; [apply E|exact C].
  - rewrite <- app_assoc. eapply ends_bind; [match goal with H : forall _ _, reads _ _ _ _ _ |- _ => apply H end|].
    eapply ends_first; [|instantiate (1 := s); destruct s, r; cbn in *; auto; contradiction].
    eapply IH; eauto. cbn [length] in L. lia.
Qed.

Lemma records_chunks c rs bs : Forall (rr_plain_ok c) rs -> concat_res (rr_to_bytes c) rs = Ok bs ->
  exists bss, bs = concat bss /\ Forall2 (fun bs v => forall pre suf, reads pre suf (rr_try_from c) bs v) bss rs.
Proof.
  intros F. revert bs. induction F as [|r rs H F IH]; intros bs E.
  - exists []. cbn in E. injection E as <-. split; [reflexivity|constructor].
  - destruct (reads_rr c r H) as (b & Eb & R). cbn [concat_res rbind] in E. rewrite Eb in E. cbn [rbind] in E.
    destruct (concat_res (rr_to_bytes c) rs) as [bs'|e| |]; cbn [rbind] in E; try discriminate. injection E as <-.
    destruct (IH _ eq_refl) as (bss & -> & F2). exists (b :: bss). split; [reflexivity|]. constructor; assumption.
Qed.
Lemma reads_chunks c rs bs pre suf : Forall (rr_plain_ok c) rs -> concat_res (rr_to_bytes c) rs = Ok bs ->
  reads pre suf (repeatP (length rs) (rr_try_from c)) bs rs.
Proof. intros F E. destruct (reads_records c rs F) as (bs' & E' & R). rewrite E in E'. injection E' as ->. apply R. Qed.

(** Reading a message up to an entry that is not read, in the answers or the authorities. *)
Lemma message_stops c h qs an au ba bn b suf (r : res rr) (s : res packet) :
  header_typed h -> ques_count h = N.of_nat (length qs) -> Forall (question_ok c) qs ->
  Forall (rr_plain_ok c) an -> concat_res (rr_to_bytes c) an = Ok ba -> Forall (rr_plain_ok c) au -> concat_res (rr_to_bytes c) au = Ok bn ->
  (forall pre, ends pre suf (rr_try_from c) b r) -> carries r s ->
  (N.of_nat (length an) < ans_count h /\ au = []) \/ (ans_count h = N.of_nat (length an) /\ N.of_nat (length au) < auth_count h) ->
  packet_try_from c (header_to_bytes h ++ flat_map (question_to_bytes c) qs ++ ba ++ bn ++ b ++ suf) = s.
Proof.
  intros H Q FQ FA EA FN EN E C D. unfold packet_try_from, buf_from.
  change (ends [] [] (packet_try_from_buf c) (header_to_bytes h ++ flat_map (question_to_bytes c) qs ++ ba ++ bn ++ b ++ suf) s) || idtac.
  assert (G : ends [] suf (packet_try_from_buf c) (header_to_bytes h ++ flat_map (question_to_bytes c) qs ++ ba ++ bn ++ b) s).
  2:{ unfold ends in G. cbn [app length] in G. rewrite <- !app_assoc in G. exact G. }
  unfold packet_try_from_buf. eapply ends_bind; [apply reads_header, H|].
  rewrite Q, Nat2N.id. eapply ends_bind; [apply reads_questions, FQ|].
  destruct D as [[L ->]|[L1 L2]].
  - cbn in EN. injection EN as <-. cbn [app].
    destruct (records_chunks c an ba FA EA) as (bss & -> & F2).
    eapply (ends_first _ _ _ _ _ (match s with Err e => Err e | Panic => Panic | _ => Diverge end)).
    + eapply (ends_repeat _ _ _ _ _ _ _ r); [exact F2|lia|exact E|destruct r, s; cbn in *; auto; contradiction].
    + destruct r, s; cbn in *; auto; contradiction.
  - rewrite L1, Nat2N.id. eapply ends_bind; [eapply reads_chunks; eassumption|].
    destruct (records_chunks c au bn FN EN) as (bss & -> & F2).
    eapply (ends_first _ _ _ _ _ (match s with Err e => Err e | Panic => Panic | _ => Diverge end)).
    + eapply (ends_repeat _ _ _ _ _ _ _ r); [exact F2|lia|exact E|destruct r, s; cbn in *; auto; contradiction].
    + destruct r, s; cbn in *; auto; contradiction.
Qed.

(** Data of no octets is written only for four values. *)
Lemma name_nonempty f : length (fqdn_to_bytes f) <> 0%nat.
Proof. rewrite fqdn_to_bytes_eq, app_length. cbn [length]. lia. Qed.
Lemma txt_nonempty : forall x buf, fold_left (fun buf e => buf ++ char_string e) x buf = [] -> buf = [] /\ x = [].
Proof.
  induction x as [|e x IH]; intros buf E; [split; [exact E|reflexivity]|].
  cbn [fold_left] in E. apply IH in E. destruct E as [E _]. apply (f_equal (@length N)) in E. rewrite app_length in E. cbn [char_string length app] in E. lia.
Qed.
Lemma empty_written c d : rdata_typed c d -> rdata_to_bytes c d = Ok [] -> d = DNULL [] \/ d = DTXT [] \/ d = DOPT [] \/ d = DOPENPGPKEY [].
Proof.
  intros T. destruct d; cbn [rdata_to_bytes]; intros E.
  all: repeat match type of E with rbind ?x _ = _ => destruct x eqn:?; cbn [rbind] in E; try discriminate end.
  all: try (apply (f_equal (fun r => match r with Ok l => length l | _ => 0%nat end)) in E; revert E;
    unfold a_to_bytes, aaaa_to_bytes, apl_to_bytes, caa_to_bytes, dhcid_to_bytes, hinfo_to_bytes, hip_to_bytes, ipseckey_to_bytes, loc_to_bytes, mx_to_bytes, naptr_to_bytes, naptr_fixed_bytes, srv_to_bytes, srv_fixed_bytes,
      sshfp_to_bytes, tlsa_to_bytes, uri_to_bytes, wks_to_bytes, dnskey_to_bytes, ds_to_bytes, rrsig_to_bytes, char_string;
    repeat rewrite app_length; repeat rewrite be_length; cbn [length]; discriminate).
  all: try (destruct x; [tauto|discriminate]).
  all: try (exfalso; apply (f_equal (fun r => match r with Ok l => length l | _ => 0%nat end)) in E; revert E;
    unfold name_to_bytes, soa_to_bytes, minfo_to_bytes, nsec_to_bytes, csync_to_bytes, svcb_to_bytes, tkey_to_bytes, tsig_to_bytes;
    repeat match goal with |- context [rbind ?x _] => destruct x; cbn [rbind] end; cbv beta iota; try discriminate;
    repeat rewrite app_length; repeat rewrite be_length; cbn [length];
    try match goal with |- (?n + _ = _)%nat -> _ => match n with context [fqdn_to_bytes ?f] => pose proof (name_nonempty f) end
                      | |- length (fqdn_to_bytes ?f) = _ -> _ => pose proof (name_nonempty f) end; lia).
  2-4: exfalso; unfold nsec_to_bytes, csync_to_bytes, svcb_to_bytes in E;
    repeat match type of E with rbind ?x _ = _ => destruct x; cbn [rbind] in E; try discriminate end;
    apply (f_equal (fun r => match r with Ok l => length l | _ => 0%nat end)) in E; rewrite !app_length, ?be_length in E; cbn [length] in E;
    try pose proof (name_nonempty (ns_next x)); lia.
  - unfold txt_to_bytes in E. injection E as E. apply txt_nonempty in E. destruct E as [_ ->]. tauto.
  - exfalso. injection E as E. unfold eui48_to_bytes in E. subst x. destruct T as [_ T]. discriminate.
  - exfalso. injection E as E. unfold eui64_to_bytes in E. subst x. destruct T as [_ T]. discriminate.
Qed.
