(** * Facts about records whose announced length is wrong: what is read is never what was written. *)
From Coq Require Import Lia ZifyBool ZifyNat ZifyN.
From Verif Require Import Base Utf8 Buffer Fqdn Header Types RDataBasic Svcb RDataSec RData Packet BaseFacts BufferFacts NameSpec FqdnFacts FqdnLoop WireSpec HeaderSpec HeaderFacts RDataSpec RecordSpec RDataReads RDataFacts RecordFacts RecordProps PacketFacts FieldSpec FieldFacts FailSpec FailFacts WireFacts DnssecFacts PacketProps ParseFacts ReadFacts.

(** ** Options *)
Fixpoint weight (m : list (N * bytes)) : nat := match m with [] => 0 | x :: m => 4 + length (snd x) + weight m end.
Lemma weight_insert k v m : (weight (opt_insert k v m) <= weight m + 4 + length v)%nat.
Proof. induction m as [|[k' v'] m IH]; cbn [opt_insert weight snd]; [lia|]. destruct (k =? k'); cbn [weight snd]; lia. Qed.
Lemma weight_fold es : forall m, (weight (fold_left (fun a x => opt_insert (fst x) (snd x) a) es m) <= weight m + weight es)%nat.
Proof. induction es as [|x es IH]; intros m; cbn [fold_left weight]; [lia|]. specialize (IH (opt_insert (fst x) (snd x) m)). pose proof (weight_insert (fst x) (snd x) m). lia. Qed.
Lemma options_weight d q es e : consecutive (option_at d) q es e -> e = (q + weight es)%nat.
Proof. induction 1 as [|q x m es e (_ & _ & _ & _ & ->) _ _ ->]; cbn [weight]; lia. Qed.
Lemma opt_weight m : length (opt_to_bytes m) = weight m.
Proof. unfold opt_to_bytes. induction m as [|x m IH]; cbn [flat_map weight]; [reflexivity|]. unfold opt_entry_bytes at 1. rewrite !app_length, !be_length, IH. lia. Qed.

(** ** The three kinds of data that are announced too short *)
Definition too_short (d : rdata) : Prop := match d with DOPT _ | DRRSIG _ => True | DCAA x => caa_tag x <> [] | _ => False end.
Lemma short_data c d db pre suf n : rdata_fits c d -> too_short d -> rdata_to_bytes c d = Ok db -> byte_list (pre ++ db ++ suf) ->
  (Z.of_nat n = Z.of_nat (length db) + size_error d)%Z -> (length pre + n <= length (pre ++ db ++ suf))%nat ->
  fst (rdata_from c (rdata_type d) (mkbuf (firstn (length pre + n) (pre ++ db ++ suf)) (length pre))) <> Ok d.
Proof.
  intros F S E B Sz Ln R. set (D := pre ++ db ++ suf) in *. set (w := firstn (length pre + n) D) in *.
  assert (Lw : length w = (length pre + n)%nat) by (apply firstn_length_le; exact Ln).
  assert (Bw : byte_list w) by (unfold w; apply byte_list_firstn, B).
  assert (Dw : D = w ++ skipn (length pre + n) D) by (symmetry; apply firstn_skipn).
  destruct (rdata_from c (rdata_type d) (mkbuf w (length pre))) as [r b] eqn:ER. cbn [fst] in R. subst r.
  destruct d; try contradiction; cbn [rdata_type rdata_to_bytes size_error] in *; apply Ok_inj in E; subst db;
    unfold rdata_from, pmap in ER; apply bind_ok in ER; destruct ER as (y & b1 & E1 & E2); cbn [ret] in E2; injection E2 as -> <-.
  - apply opt_iff in E1; [|exact Bw|lia]. destruct E1 as (es & C & M & _). apply options_weight in C. pose proof (weight_fold es []) as W. rewrite <- M in W. cbn [weight] in W.
    rewrite opt_weight in Sz. destruct x as [|x m]; [|cbn [length weight] in *; lia]. cbn [length weight] in *. destruct es; cbn [weight] in *; lia.
  - unfold rrsig_try_from in E1. cbn [rdata_fits] in F. destruct F as [_ F].
    apply bind_ok in E1. destruct E1 as (? & ? & X & E1). apply (u16_as_got _ _ _ _ _ Bw) in X. destruct X as (? & _ & _ & ->).
    apply bind_ok in E1. destruct E1 as (? & ? & X & E1). apply (u8_as_got _ _ _ _ _ Bw) in X. destruct X as (-> & _).
    apply bind_ok in E1. destruct E1 as (? & ? & X & E1). apply (u8_got _ _ _ _ Bw) in X. destruct X as (-> & _).
    do 3 (apply bind_ok in E1; destruct E1 as (? & ? & X & E1); apply u32_got in X; destruct X as (-> & _)).
    apply bind_ok in E1. destruct E1 as (? & ? & X & E1). apply (u16_got _ _ _ _ Bw) in X. destruct X as (U & ->). apply u16_at_end in U.
    apply bind_ok in E1. destruct E1 as (f & b2 & X & E1). apply bind_ok in E1. destruct E1 as (sg & b3 & Y & E1). cbn [ret] in E1. injection E1 as <- <-.
    cbn [rs_type rs_alg rs_labels rs_ttl rs_exp rs_inc rs_tag rs_signer rs_sig] in *.
    match type of X with extract_fqdn (mkbuf w ?p) = _ => set (q := p) in *; assert (Q : q = (length pre + 18)%nat) by lia end.
    assert (b2 = mkbuf w (pos b2)) as Eb by (pose proof (keeps_fqdn (mkbuf w q) (Ok f) b2 ltac:(red; cbn [data pos]; lia) X) as [Db _]; cbn [data] in Db; destruct b2; cbn in *; congruence).
    rewrite Eb in X, Y. apply extract_fqdn_iff in X; [|exact Bw]. pose proof (name_at_end _ _ _ _ X) as Z. apply rest_got in Y; [|lia].
    apply (name_at_ext _ (skipn (length pre + n) D)) in X. rewrite <- Dw in X.
    match goal with D := pre ++ rrsig_to_bytes (mkRrsig ?t ?a ?l ?o ?e ?i ?k f sg) ++ suf |- _ => set (h := be 2 (rtype_code t) ++ [salg_code a] ++ [l] ++ be 4 o ++ be 4 e ++ be 4 i ++ be 2 k) end.
    assert (Lh : length h = 18%nat) by (unfold h; rewrite !app_length, !be_length; reflexivity).
    assert (Dh : D = (pre ++ h) ++ fqdn_to_bytes f ++ sg ++ suf).
    { unfold D, rrsig_to_bytes, h. cbn [rs_type rs_alg rs_labels rs_ttl rs_exp rs_inc rs_tag rs_signer rs_sig]. rewrite <- !app_assoc. reflexivity. }
    pose proof (reads_fqdn f (pre ++ h) (sg ++ suf) F) as N. Transparent reads. unfold reads in N. Opaque reads. rewrite <- Dh, app_length, Lh, <- Q in N. apply extract_fqdn_iff in N; [|exact B]. pose proof (name_at_unique _ _ _ _ _ _ B X N) as (_ & K).
    apply (f_equal (@length _)) in Y. rewrite skipn_length in Y.
    unfold rrsig_to_bytes in Sz. cbn [rs_type rs_alg rs_labels rs_ttl rs_exp rs_inc rs_tag rs_signer rs_sig] in Sz. rewrite !app_length, !be_length in Sz. cbn [length] in *. lia.
  - assert (Lp : (length pre <= length w)%nat) by lia. destruct (caa_got _ _ _ _ Bw Lp E1) as (fl & raw & e & _ & (O & Z & _ & ->) & _ & _ & _ & V). destruct x as [cr tag v]. cbn [caa_critical caa_tag caa_value too_short rdata_fits] in *.
    apply (f_equal (@length _)) in V. rewrite skipn_length in V. unfold caa_to_bytes in *. cbn [caa_critical caa_tag caa_value] in *. rewrite !app_length in Sz. cbn [length] in Sz.
    assert (length raw = length tag). { unfold octet_at in O. assert (length pre + 1 < length w)%nat by (apply nth_error_Some; congruence).
      assert (O' : nth_error D (length pre + 1) = Some (N.of_nat (length raw))) by (rewrite Dw, nth_error_app1 by assumption; exact O). unfold D in O'. rewrite nth_error_app2 in O' by lia.
      replace (length pre + 1 - length pre)%nat with 1%nat in O' by lia. cbn in O'. injection O' as O'. unfold short in F. unfold len8, u8 in O'. rewrite N.mod_small in O' by lia. lia. }
    destruct tag; [contradiction|]. cbn [length] in *. lia.
Qed.

(** ** Records *)
(** The name, the fixed part and RDLENGTH of a record are read as they were written, wrong or not. *)
Lemma record_frame c r r' bs pre suf n db e : fqdn_ok (rr_name r) -> bs = fqdn_to_bytes (rr_name r) ++ rr_head_bytes c r ++ be 2 n ++ db -> n < 65536 ->
  byte_list (pre ++ bs ++ suf) -> record_at c (pre ++ bs ++ suf) (length pre) r' e ->
  let pre' := pre ++ fqdn_to_bytes (rr_name r) ++ rr_head_bytes c r ++ be 2 n in
  pre ++ bs ++ suf = pre' ++ db ++ suf /\ e = (length pre' + N.to_nat n)%nat /\ (e <= length (pre ++ bs ++ suf))%nat /\
  fst (rdata_from c (rr_type r') (mkbuf (firstn e (pre ++ bs ++ suf)) (length pre'))) = Ok (rr_data r').
Proof.
  intros F Eb Ln B (k & v & len & N1 & _ & _ & _ & _ & _ & _ & _ & U & Ee & Le & D) pre'.
  assert (Dx : pre ++ bs ++ suf = pre' ++ db ++ suf) by (unfold pre'; rewrite Eb, <- !app_assoc; reflexivity).
  assert (K : k = (length pre + length (fqdn_to_bytes (rr_name r)))%nat).
  { pose proof (reads_fqdn (rr_name r) pre (rr_head_bytes c r ++ be 2 n ++ db ++ suf) F) as RF. Transparent reads. unfold reads in RF. Opaque reads.
    replace (pre ++ fqdn_to_bytes (rr_name r) ++ rr_head_bytes c r ++ be 2 n ++ db ++ suf) with (pre ++ bs ++ suf) in RF by (rewrite Eb, <- !app_assoc; reflexivity).
    apply extract_fqdn_iff in RF; [|exact B]. apply (name_at_unique _ _ _ _ _ _ B N1 RF). }
  assert (LH : length (rr_head_bytes c r) = 8%nat) by (unfold rr_head_bytes; rewrite !app_length, !be_length; reflexivity).
  assert (Lp : length pre' = (k + 10)%nat) by (unfold pre'; rewrite !app_length, LH, be_length; lia).
  assert (EN : len = n).
  { destruct U as (a & b & U1 & _ & U2 & _ & ->).
    replace (pre ++ bs ++ suf) with ((pre ++ fqdn_to_bytes (rr_name r) ++ rr_head_bytes c r) ++ be 2 n ++ db ++ suf) in U1, U2 by (rewrite Eb, <- !app_assoc; reflexivity).
    rewrite nth_error_app2 in U1, U2 by (rewrite !app_length; lia). rewrite !app_length, LH in U1, U2.
    match type of U1 with nth_error _ ?x = _ => replace x with 0%nat in U1 by lia end.
    match type of U2 with nth_error _ ?x = _ => replace x with 1%nat in U2 by lia end.
    cbn in U1, U2. injection U1 as <-. injection U2 as <-. change (256 ^ 1) with 256. change (256 ^ 0) with 1. lia. }
  subst len. rewrite Lp. split; [exact Dx|]. split; [exact Ee|]. split; [exact Le|exact D].
Qed.
Definition data_16 (c : cfg) (d : rdata) : Prop := forall db, rdata_to_bytes c d = Ok db -> N.of_nat (length db) <= 65535.
Lemma plain_parts c r bs : rdata_typed c (rr_data r) -> rr_to_bytes c r = Ok bs -> exists k db, rdata_to_bytes c (rr_data r) = Ok db /\
  bs = fqdn_to_bytes (rr_name r) ++ rr_head_bytes c r ++ be 2 (len16 k) ++ db /\ (Z.of_nat k = Z.of_nat (length db) + size_error (rr_data r))%Z.
Proof.
  intros T E. unfold rr_to_bytes in E. apply rbind_ok in E. destruct E as (k & _ & E).
  apply rbind_ok in E. destruct E as (n & En & E). apply rbind_ok in E. destruct E as (db & Ed & E). apply Ok_inj in E. subst bs.
  exists n, db. split; [exact Ed|]. split; [unfold rr_head_bytes; rewrite <- !app_assoc; reflexivity|].
  destruct (rdata_size c _ db T Ed) as (n' & En' & S). rewrite En in En'. injection En' as <-. exact S.
Qed.
Lemma short_record c r bs pre suf e : rr_ok c r -> too_short (rr_data r) -> data_16 c (rr_data r) -> rr_to_bytes c r = Ok bs ->
  byte_list (pre ++ bs ++ suf) -> ~ record_at c (pre ++ bs ++ suf) (length pre) r e.
Proof.
  intros (H & T & F) S W E B R. destruct (plain_parts c r bs T E) as (k & db & Ed & Eb & Sz).
  assert (K : len16 k = N.of_nat k).
  { apply len16_id. specialize (W db Ed). destruct (rr_data r); try contradiction; cbn [size_error] in Sz; try lia.
    match goal with m : opt |- _ => destruct m end; cbn [length] in Sz; [|lia]. cbn in Ed. apply Ok_inj in Ed. subst db. cbn [length] in Sz. lia. }
  destruct (record_frame c r r bs pre suf (len16 k) db e (proj1 H) Eb (len16_lt k) B R) as (Dx & Ee & Le & D). cbv zeta in *.
  rewrite (proj1 (proj2 (proj2 H))) in D. rewrite Dx in D, Le, B. rewrite K in *. rewrite Nnat.Nat2N.id in Ee. rewrite Ee in D, Le.
  revert D. apply short_data; assumption.
Qed.
(** An SVCB record with parameters as the last of a message: more octets are announced than there are. *)
Lemma long_record c r r' bs pre x e : fqdn_ok (rr_name r) -> rdata_typed c (rr_data r) -> rr_data r = DSVCB x -> sv_params x <> [] -> rr_to_bytes c r = Ok bs ->
  (forall db, rdata_to_bytes c (rr_data r) = Ok db -> N.of_nat (length db + 4 * length (sv_params x)) <= 65535) ->
  byte_list (pre ++ bs) -> ~ record_at c (pre ++ bs) (length pre) r' e.
Proof.
  intros H T D S E W B R. destruct (plain_parts c r bs T E) as (k & db & Ed & Eb & Sz). specialize (W db Ed). rewrite D in Sz. cbn [size_error] in Sz.
  assert (K : len16 k = N.of_nat k) by (apply len16_id; lia).
  rewrite <- (app_nil_r bs) in B, R. destruct (record_frame c r r' bs pre [] (len16 k) db e H Eb (len16_lt k) B R) as (Dx & Ee & Le & _).
  cbv zeta in *. rewrite Dx in Le. rewrite K in *. rewrite Nnat.Nat2N.id in Ee. rewrite Ee, !app_length, !be_length in Le. destruct (sv_params x); [contradiction|]. cbn [length] in *. lia.
Qed.

(** ** Messages *)
Lemma consecutive_app {X} (R : nat -> X -> nat -> Prop) p xs m ys e : consecutive R p xs m -> consecutive R m ys e -> consecutive R p (xs ++ ys) e.
Proof. induction 1 as [|p x k xs m H L C IH]; intros D; [exact D|]. cbn [app]. econstructor; [exact H|exact L|apply IH, D]. Qed.
Lemma walk {X} (R : nat -> X -> nat -> Prop) (f : P X) (d : bytes) : (forall p x e, (p <= length d)%nat -> f (mkbuf d p) = (Ok x, mkbuf d e) <-> R p x e) ->
  forall bss xs, Forall2 (fun b x => forall pre suf, reads pre suf f b x) bss xs -> forall pre suf zs e, d = pre ++ concat bss ++ suf ->
  consecutive R (length pre) zs e -> (length xs <= length zs)%nat -> exists ys, zs = xs ++ ys /\ consecutive R (length pre + length (concat bss)) ys e.
Proof.
  intros I. induction 1 as [|b x bss xs Rd F IH]; intros pre suf zs e D C Lz; [exists zs; split; [reflexivity|]; cbn [app concat length] in *; rewrite Nat.add_0_r; exact C|].
  inversion C as [|p y m l e' Hy L C']; subst; cbn [length] in Lz; [lia|]. cbn [concat] in *.
  assert (D : (pre ++ (b ++ concat bss) ++ suf) = pre ++ b ++ concat bss ++ suf) by (rewrite <- app_assoc; reflexivity).
  apply I in Hy; [|rewrite app_length; lia]. specialize (Rd pre (concat bss ++ suf)). Transparent reads. unfold reads in Rd. Opaque reads. rewrite <- D, Hy in Rd. injection Rd as -> ->.
  destruct (IH (pre ++ b) suf l e) as (ys & -> & Cy); [rewrite D, <- app_assoc; reflexivity|rewrite app_length; exact C'|lia|].
  exists ys. split; [reflexivity|]. rewrite app_length in Cy |- *. rewrite Nat.add_assoc. exact Cy.
Qed.
(** Whatever packet comes back, it has the same number of entries, the records in front of the wrong one are right, and the wrong one
    was read at its place. *)
Lemma record_place c p bs suf before r after p' : packet_to_bytes c p = Ok bs -> header_typed (p_header p) -> small_sections p -> byte_list (bs ++ suf) -> Forall (question_ok c) (p_questions p) ->
  records_of p = before ++ r :: after -> Forall (rr_plain_ok c) before -> packet_try_from c (bs ++ suf) = Ok p' ->
  p_questions p' = p_questions p /\ exists rb pre rest e r' after', rr_to_bytes c r = Ok rb /\ bs ++ suf = pre ++ rb ++ rest ++ suf /\ (after = [] -> rest = []) /\
    records_of p' = before ++ r' :: after' /\ record_at c (bs ++ suf) (length pre) r' e.
Proof.
  intros E Hh Sm B Q Er Fb R. pose proof (plain_counts c p bs Hh E) as V. unfold packet_to_bytes in E. apply rbind_ok in E. destruct E as (n & _ & E).
  apply rbind_ok in E. destruct E as (ba & Ea & E). apply rbind_ok in E. destruct E as (bn & En & E). apply rbind_ok in E. destruct E as (bd & Ed & E). apply Ok_inj in E.
  assert (G : concat_res (rr_to_bytes c) (records_of p) = Ok (ba ++ bn ++ bd)).
  { apply concat_res_ok in Ea, En, Ed. destruct Ea as (xa & Fa & ->), En as (xn & Fn & ->), Ed as (xd & Fd & ->). apply concat_res_ok. exists (xa ++ xn ++ xd).
    split; [unfold records_of; repeat apply Forall2_app; assumption|]. rewrite !concat_app. reflexivity. }
  rewrite Er in G. apply concat_res_ok in G. destruct G as (bss & FG & G). apply Forall2_app_inv_l in FG. destruct FG as (bb & br & F1 & F2 & ->).
  inversion F2 as [|x rb l l' Hb F3]; subst x l br. rewrite concat_app in G. cbn [concat] in G.
  assert (H12 : length (patched_header p) = 12%nat) by (rewrite patched_header_eq; apply header_length).
  assert (V' : fields_of (bs ++ suf) = fields_of bs). { rewrite <- E, <- !app_assoc. rewrite !(fields_app (patched_header p)) by exact H12. reflexivity. }
  apply packet_iff in R; [|exact B]. destruct R as (e & _ & _ & _ & _ & (L1 & L2 & L3 & L4) & e1 & e2 & e3 & C1 & C2 & C3 & C4).
  rewrite V', V, (lens16_recount p Sm) in L1, L2, L3, L4. cbn [view recount p_header v_qd v_an v_ns v_ar ques_count ans_count auth_count add_count] in L1, L2, L3, L4.
  pose proof (consecutive_app _ _ _ _ _ _ C2 (consecutive_app _ _ _ _ _ _ C3 C4)) as C. change (p_answers p' ++ p_authorities p' ++ p_additionals p') with (records_of p') in C.
  assert (Lr : length (records_of p') = length (records_of p)) by (unfold records_of; rewrite !app_length; lia).
  assert (D : bs ++ suf = patched_header p ++ concat (map (question_to_bytes c) (p_questions p)) ++ (concat bb ++ rb ++ concat l') ++ suf) by (rewrite <- E, G, flat_map_concat_map, <- !app_assoc; reflexivity).
  rewrite <- H12 in C1.
  destruct (walk _ (question_try_from c) (bs ++ suf) (fun p x e L => question_iff c _ p x e B L) (map (question_to_bytes c) (p_questions p)) (p_questions p)) with (pre := patched_header p) (suf := (concat bb ++ rb ++ concat l') ++ suf) (zs := p_questions p') (e := e1) as (ys & Eq & Cq);
    [clear - Q; induction Q as [|q qs H F IH]; constructor; [intros; apply reads_question, H|exact IH]|exact D|exact C1|lia|].
  assert (ys = []) as -> by (apply (f_equal (@length _)) in Eq; rewrite app_length in Eq; destruct ys; [reflexivity|cbn [length] in Eq; lia]).
  split; [rewrite Eq; apply app_nil_r|]. inversion Cq as [z Z|]; subst z. clear Cq. subst e1. rewrite <- app_length in C.
  destruct (walk _ (rr_try_from c) (bs ++ suf) (fun p x e L => record_iff c _ p x e B L) bb before) with (pre := patched_header p ++ concat (map (question_to_bytes c) (p_questions p))) (suf := (rb ++ concat l') ++ suf) (zs := records_of p') (e := e) as (ys & Ez & Cz).
  - clear - F1 Fb. induction F1 as [|x b xs bs H F IH]; constructor; [|apply IH, (Forall_inv_tail Fb)].
    destruct (reads_rr c x (Forall_inv Fb)) as (b' & E' & R). rewrite H in E'. apply Ok_inj in E'. subst b'. exact R.
  - rewrite D, <- !app_assoc. reflexivity.
  - exact C.
  - rewrite Lr, Er, app_length. lia.
  - assert (Ly : length ys = S (length after)) by (rewrite Ez, Er, !app_length in Lr; cbn [length] in Lr; lia). destruct ys as [|r' ys]; [discriminate|].
    rewrite <- app_length in Cz. inversion Cz as [|q x m l e' Hx _ _]; subst q x l e'. exists rb, ((patched_header p ++ concat (map (question_to_bytes c) (p_questions p))) ++ concat bb), (concat l'), m, r', ys.
    split; [exact Hb|]. split; [rewrite D, <- !app_assoc; reflexivity|]. split; [intros ->; inversion F3; reflexivity|]. split; [exact Ez|exact Hx].
Qed.
Lemma spoiled_never c p bs suf before r after p' : packet_to_bytes c p = Ok bs -> header_typed (p_header p) -> small_sections p -> byte_list (bs ++ suf) -> Forall (question_ok c) (p_questions p) ->
  records_of p = before ++ r :: after -> Forall (rr_plain_ok c) before -> rr_ok c r -> too_short (rr_data r) -> data_16 c (rr_data r) -> packet_try_from c (bs ++ suf) = Ok p' ->
  exists r' after', records_of p' = before ++ r' :: after' /\ r' <> r.
Proof.
  intros E Hh Sm B Q Er Fb O S W R. destruct (record_place c p bs suf before r after p' E Hh Sm B Q Er Fb R) as (_ & rb & pre & rest & e & r' & after' & Eb & D & _ & Z & A).
  exists r', after'. split; [exact Z|]. intros ->. rewrite D in A, B. revert A. apply short_record; assumption.
Qed.
Lemma svcb_rejected c p bs before r x : packet_to_bytes c p = Ok bs -> header_typed (p_header p) -> small_sections p -> byte_list bs -> Forall (question_ok c) (p_questions p) ->
  records_of p = before ++ [r] -> Forall (rr_plain_ok c) before -> rr_ok c r -> rr_data r = DSVCB x -> sv_params x <> [] ->
  (forall db, rdata_to_bytes c (rr_data r) = Ok db -> N.of_nat (length db + 4 * length (sv_params x)) <= 65535) -> forall p', packet_try_from c bs <> Ok p'.
Proof.
  intros E Hh Sm B Q Er Fb O D S W p' R. rewrite <- (app_nil_r bs) in R. assert (B' : byte_list (bs ++ [])) by (rewrite app_nil_r; exact B). destruct (record_place c p bs [] before r [] p' E Hh Sm B' Q Er Fb R) as (_ & rb & pre & rest & e & r' & after' & Eb & Dx & Nr & _ & A).
  rewrite (Nr eq_refl), !app_nil_r in Dx. rewrite app_nil_r, Dx in A. rewrite Dx in B. revert A. eapply long_record; try eassumption; apply O.
Qed.
Lemma first_wrong {A} (P : A -> Prop) : (forall x, P x \/ ~ P x) -> forall l, Forall P l \/ exists a x b, l = a ++ x :: b /\ Forall P a /\ ~ P x.
Proof.
  intros D. induction l as [|x l [IH|(a & y & b & -> & F & N)]]; [left; constructor| |]; (destruct (D x) as [H|H]; [|right; exists [], x; eexists; split; [reflexivity|]; split; [constructor|exact H]]).
  - left. constructor; assumption.
  - right. exists (x :: a), y, b. split; [reflexivity|]. split; [constructor; assumption|exact N].
Qed.
Lemma size_exact_dec d : size_exact d \/ ~ size_exact d.
Proof. destruct d; cbn [size_exact]; try tauto; [destruct (sv_params x)|destruct (caa_tag x)]; intuition discriminate. Qed.
