(** * Properties C57 - C64: sizes of received names and packets, equality of names, the object API *)
From Coq Require Import Lia Sorting.Sorted.
From Verif Require Import Base Buffer Fqdn Header Types RDataBasic Bitmap Svcb RDataSec RData Packet BaseFacts NameSpec FqdnFacts
  CodeSpec RDataSpec HeaderSpec CompressSpec ChunkFacts RecordSpec RecordFacts WireSpec WireFacts RecordProps PropName PropRecord SvcbParse ApiSpec FieldSpec FieldFacts Api ObjectSpec ObjectFacts.

(** ** C57: false as stated: labels of 64 to 191 octets and names of more than 255 octets are accepted,
    and a name can be longer than the message it was read from. *)
Theorem C57_label_refuted : exists (d : bytes) (f : list bytes) (b : buf), byte_list d /\ extract_fqdn (buf_from d) = (Ok f, b) /\
  exists l, In l f /\ length l = 191%nat.
Proof.
  exists (191 :: repeat 97 191 ++ [0]), [repeat 97 191], (mkbuf (191 :: repeat 97 191 ++ [0]) 193).
  split; [apply Forall_forall; intros x I; repeat (destruct I as [<-|I]; [lia|]); destruct I|].
  split; [vm_compute; reflexivity|]. exists (repeat 97 191). split; [left; reflexivity|reflexivity].
Qed.
Theorem C57_name_refuted : exists (d : bytes) (f : list bytes) (b : buf), byte_list d /\ extract_fqdn (buf_from d) = (Ok f, b) /\
  Forall (fun l : bytes => (length l <= 63)%nat) f /\ (255 < octets_in_name f)%nat.
Proof.
  exists (flat_map (fun l => 63 :: l) (repeat (repeat 97 63) 4) ++ [0]), (repeat (repeat 97 63) 4). eexists.
  split; [apply Forall_forall; intros x I; repeat (destruct I as [<-|I]; [lia|]); destruct I|].
  split; [vm_compute; reflexivity|]. split; [repeat constructor|]. apply Nat.ltb_lt. vm_compute. reflexivity.
Qed.
Theorem C57_growth_refuted : exists (d : bytes) (f : list bytes) (b : buf), byte_list d /\ extract_fqdn (buf_from d) = (Ok f, b) /\
  (length d < octets_in_name f)%nat.
Proof.
  exists (10 :: 12 :: repeat 97 9 ++ [192; 1; 97; 0]). eexists. eexists.
  split; [repeat constructor|]. split; [vm_compute; reflexivity|]. apply Nat.ltb_lt. vm_compute. reflexivity.
Qed.
(** Proved: at most one label for each octet of the message, none empty, none longer than 191 octets. *)
Theorem C57_bound_partial : forall (d : bytes) (p : nat) (f : list bytes) (b : buf), byte_list d -> extract_fqdn (mkbuf d p) = (Ok f, b) ->
  (length f < length d)%nat /\ Forall (fun l : bytes => (1 <= length l <= 191)%nat) f /\ (octets_in_name f <= 192 * (length d - 1) + 1)%nat.
Proof.
  intros d p f b B E. assert (D : exists q, b = mkbuf d q).
  { unfold extract_fqdn in E. cbn [data pos] in E. destruct (fqdn_loop d (fqdn_fuel d) [] None p) as [r q]. exists q. congruence. }
  destruct D as [q ->]. apply C07_extract_fqdn_iff in E; [|exact B]. exact (name_bounded _ _ _ _ E).
Qed.
(** What is read is what RFC 1035 allows whenever the octets of the message are. *)
Theorem C57_rfc_partial : forall (d : bytes) (p : nat) (f : list bytes) (q : nat), rfc_name_at d p f q -> (octets_in_name f <= 255)%nat ->
  exists b, extract_fqdn (mkbuf d p) = (Ok f, b) /\ rfc_sizes f.
Proof.
  intros d p f q R L. eexists. split; [exact (C07_rfc_names_accepted d p f q R)|]. split; [|exact L].
  clear L. unfold rfc_name_at in R. induction R as [p H|p l ls q (n & _ & B & L & ->) R IH|p t ls q P R IH I]; [constructor| |exact IH].
  constructor; [|exact IH]. unfold slice. rewrite firstn_length. lia.
Qed.
Example C57_ex : byte_list [3; 97; 98; 99; 0; 1; 100; 192; 0] /\
  extract_fqdn (mkbuf [3; 97; 98; 99; 0; 1; 100; 192; 0] 5) = (Ok [[100]; [97; 98; 99]], mkbuf [3; 97; 98; 99; 0; 1; 100; 192; 0] 9).
Proof. split; [repeat constructor|vm_compute; reflexivity]. Qed.
Print Assumptions C57_label_refuted.
Print Assumptions C57_name_refuted.
Print Assumptions C57_growth_refuted.
Print Assumptions C57_bound_partial.
Print Assumptions C57_rfc_partial.

(** ** C58 *)
Theorem C58_entries : forall (c : cfg) (d : bytes) (p : packet), byte_list d -> packet_try_from c d = Ok p ->
  (12 + 5 * length (p_questions p) + 11 * (length (p_answers p) + length (p_authorities p) + length (p_additionals p)) <= length d)%nat.
Proof. intros c d p B E. apply packet_iff in E; [|exact B]. destruct E as [e H]. exact (packet_room _ _ _ _ H). Qed.
Theorem C58_names : forall (c : cfg) (d : bytes) (p : packet), byte_list d -> packet_try_from c d = Ok p ->
  Forall (fun f => (length f < length d)%nat /\ (octets_in_name f <= 192 * (length d - 1) + 1)%nat)
         (map q_name (p_questions p) ++ map rr_name (p_answers p ++ p_authorities p ++ p_additionals p)).
Proof.
  intros c d p B E. apply packet_iff in E; [|exact B]. destruct E as (e & _ & _ & _ & _ & _ & e1 & e2 & e3 & C1 & C2 & C3 & C4).
  assert (Q : forall p qs e, consecutive (question_at c d) p qs e -> Forall (fun f => (length f < length d)%nat /\ (octets_in_name f <= 192 * (length d - 1) + 1)%nat) (map q_name qs)).
  { clear. intros p qs e C. induction C as [|p q m qs e (k & v & N & _) _ C IH]; cbn [map]; constructor; [|exact IH].
    destruct (name_bounded _ _ _ _ N) as (H & _ & H'). auto. }
  assert (R : forall p rs e, consecutive (record_at c d) p rs e -> Forall (fun f => (length f < length d)%nat /\ (octets_in_name f <= 192 * (length d - 1) + 1)%nat) (map rr_name rs)).
  { clear. intros p rs e C. induction C as [|p q m qs e (k & v & n & N & _) _ C IH]; cbn [map]; constructor; [|exact IH].
    destruct (name_bounded _ _ _ _ N) as (H & _ & H'). auto. }
  rewrite !map_app, !Forall_app. eauto 8.
Qed.
Example C58_ex : let d := [0; 1; 0; 0; 0; 1; 0; 0; 0; 0; 0; 0; 0; 0; 1; 0; 1] in
  byte_list d /\ exists p, packet_try_from ex_cfg d = Ok p /\ length (p_questions p) = 1%nat /\ length d = (12 + 5 * 1)%nat.
Proof. cbn zeta. split; [repeat constructor|]. eexists. split; [vm_compute; reflexivity|]. split; reflexivity. Qed.
Print Assumptions C58_entries.
Print Assumptions C58_names.

(** ** C59: equality of names.  False as stated: spelling matters, and so do empty labels. *)
Theorem C59_case_refuted : exists f g : fqdn, f = fqdn_new [65; 46; 98] /\ g = fqdn_new [97; 46; 98] /\ same_name f g /\ fqdn_eqb f g = false.
Proof. exists [[65]; [98]], [[97]; [98]]. repeat split; reflexivity. Qed.
Theorem C59_empty_refuted : exists f g : fqdn, f = fqdn_append_label [[97]] [] /\ g = [[97]] /\ fqdn_to_bytes f = fqdn_to_bytes g /\ fqdn_eqb f g = false.
Proof. exists [[97]; []], [[97]]. repeat split; reflexivity. Qed.
Theorem C59_equal_partial : forall f g : fqdn,
  (fqdn_eqb f g = true -> same_name f g /\ fqdn_to_bytes f = fqdn_to_bytes g /\ fqdn_display f = fqdn_display g) /\
  (Forall (fun l : bytes => (1 <= length l <= 255)%nat) f -> Forall (fun l : bytes => (1 <= length l <= 255)%nat) g ->
   (fqdn_eqb f g = true <-> fqdn_to_bytes f = fqdn_to_bytes g)).
Proof.
  intros f g. split; [intros E; apply fqdn_eqb_iff in E; subst; repeat split; reflexivity|]. exact (names_equal f g).
Qed.
Example C59_ex : fqdn_eqb (fqdn_new [97; 46; 98]) (fqdn_new [97; 46; 46; 98; 46]) = true /\
  Forall (fun l : bytes => (1 <= length l <= 255)%nat) (fqdn_new [97; 46; 98]).
Proof. split; [reflexivity|]. repeat constructor. Qed.
Print Assumptions C59_case_refuted.
Print Assumptions C59_empty_refuted.
Print Assumptions C59_equal_partial.

(** ** C60: records made from the structs *)
Theorem C60_type : forall s : payload, rtype_code (record_type s) = payload_number s /\ rdata_type (into_record_data s) = record_type s.
Proof. intros s. split; [exact (payload_code s)|exact (payload_matches s)]. Qed.
Theorem C60_reach : forall d : rdata, (exists s, into_record_data s = d) <-> rdata_type d <> CDS /\ rdata_type d <> CDNSKEY.
Proof. exact payload_all. Qed.
Theorem C60_injective : forall s s' : payload, into_record_data s = into_record_data s' -> s = s'.
Proof. intros s s' E. destruct s, s'; cbn [into_record_data] in E; congruence. Qed.
(** A record so made, with a legal name and data that fits, reads back. *)
Theorem C60_roundtrip : forall (c : cfg) (h : hasher) (f : fqdn) (k : rclass) (ttl : N) (s : payload) bs m',
  fqdn_ok f -> rtype_exists c (record_type s) = true -> rclass_plain k -> U32 ttl ->
  rdata_typed c (into_record_data s) -> rdata_fits c (into_record_data s) ->
  hash_separates h (f :: rdata_names (into_record_data s)) ->
  rr_to_bytes_compressed c h (rr_new f (record_type s) k ttl (into_record_data s)) [] 0 = Ok (bs, m') -> N.of_nat (length bs) <= 16384 ->
  rr_try_from c (buf_from bs) = (Ok (rr_new f (record_type s) k ttl (into_record_data s)), mkbuf bs (length bs)).
Proof.
  intros c h f k ttl s bs m' F X P U T Fi H E L.
  assert (O : rr_ok c (rr_new f (record_type s) k ttl (into_record_data s))).
  { unfold rr_ok, rr_head_ok, decodable. cbn [rr_name rr_type rr_class rr_ttl rr_data rr_flush rr_new].
    assert (record_type s <> CDS /\ record_type s <> CDNSKEY) by (destruct s; split; discriminate).
    assert (record_type s = rdata_type (into_record_data s)) by (symmetry; apply payload_matches). tauto. }
  destruct (C26_compressed c h (f :: rdata_names (into_record_data s)) [] [] (rr_new f (record_type s) k ttl (into_record_data s)) bs m' H ltac:(apply incl_refl) O ltac:(apply dict_ok_nil) E L) as [R _].
  specialize (R []). cbn [app length] in R. rewrite app_nil_r in R. exact R.
Qed.
Example C60_ex : let s := SMx (mkMx 10 [[97]]) in let r := rr_new [[98]] (record_type s) CIN 60 (into_record_data s) in
  rdata_typed ex_cfg (into_record_data s) /\ rdata_fits ex_cfg (into_record_data s) /\
  exists bs m', rr_to_bytes_compressed ex_cfg (fun f => N.of_nat (length (concat f)) * 256 + hd 0 (hd [] f)) r [] 0 = Ok (bs, m') /\ length bs = 18%nat.
Proof. cbn zeta. split; [repeat constructor|]. split; [repeat constructor|]. eexists. eexists. split; [vm_compute; reflexivity|reflexivity]. Qed.
Print Assumptions C60_type.
Print Assumptions C60_reach.
Print Assumptions C60_injective.
Print Assumptions C60_roundtrip.

(** ** C61: after any history of setter calls each field has the value it was given last *)
Theorem C61_question : forall (q : question) (ks : list qcall), let q' := fold_left qrun ks q in
  q_name q' = latest (q_name q) (given (fun k => match k with QName f => Some f | _ => None end) ks) /\
  q_type q' = latest (q_type q) (given (fun k => match k with QType t => Some t | _ => None end) ks) /\
  q_class q' = latest (q_class q) (given (fun k => match k with QClass x => Some x | _ => None end) ks) /\
  q_unicast q' = latest (q_unicast q) (given (fun k => match k with QUnicast b => Some b | _ => None end) ks).
Proof. intros q ks. cbn zeta. repeat split; apply field_history; intros s []; reflexivity. Qed.
Theorem C61_record : forall (r : rr) (ks : list rcall), let r' := fold_left rrun ks r in
  rr_name r' = latest (rr_name r) (given (fun k => match k with RName f => Some f | _ => None end) ks) /\
  rr_type r' = latest (rr_type r) (given (fun k => match k with RType t => Some t | _ => None end) ks) /\
  rr_class r' = latest (rr_class r) (given (fun k => match k with RClass x => Some x | _ => None end) ks) /\
  rr_ttl r' = latest (rr_ttl r) (given (fun k => match k with RTtl n => Some n | _ => None end) ks) /\
  rr_flush r' = latest (rr_flush r) (given (fun k => match k with RFlush b => Some b | _ => None end) ks) /\
  rr_data r' = latest (rr_data r) (given (fun k => match k with RData d => Some d | _ => None end) ks) /\
  rr_take_data r' = rr_data r'.
Proof. intros r ks. cbn zeta. repeat split; apply field_history; intros s []; reflexivity. Qed.
(** A new question or record has the fields given, and no mDNS bit. *)
Theorem C61_new : (forall f t k, let q := question_new f t k in q_name q = f /\ q_type q = t /\ q_class q = k /\ q_unicast q = false) /\
  (forall f t k n d, let r := rr_new f t k n d in rr_name r = f /\ rr_type r = t /\ rr_class r = k /\ rr_ttl r = n /\ rr_data r = d /\ rr_flush r = false).
Proof. split; cbn zeta; intros; repeat split; reflexivity. Qed.
(** [data_raw] is the end of the record's own octets, behind the length. *)
Theorem C61_data_raw : forall (c : cfg) (r : rr) (bs : bytes), rr_to_bytes c r = Ok bs ->
  exists raw, rr_data_raw c r = Ok raw /\ skipn (length (fqdn_to_bytes (rr_name r)) + 10) bs = raw.
Proof.
  intros c r bs E. unfold rr_to_bytes in E. apply rbind_ok in E. destruct E as (k & _ & E). apply rbind_ok in E. destruct E as (n & _ & E).
  apply rbind_ok in E. destruct E as (d & Ed & E). match type of E with Ok ?y = _ => assert (Z : bs = y) by congruence end. rewrite Z. clear E Z. exists d. split; [exact Ed|].
  set (w := fqdn_to_bytes (rr_name r)). rewrite Nat.add_comm.
  replace (10 + length w)%nat with (length (w ++ be 2 (rtype_code (rr_type r)) ++ be 2 (rr_class_field c r) ++ be 4 (rr_ttl r) ++ be 2 (len16 n)))
    by (rewrite !app_length, !be_length; lia).
  replace (w ++ be 2 (rtype_code (rr_type r)) ++ be 2 (rr_class_field c r) ++ be 4 (rr_ttl r) ++ be 2 (len16 n) ++ d)
    with ((w ++ be 2 (rtype_code (rr_type r)) ++ be 2 (rr_class_field c r) ++ be 4 (rr_ttl r) ++ be 2 (len16 n)) ++ d) by (rewrite <- !app_assoc; reflexivity).
  match goal with |- skipn (length ?x) _ = _ => generalize x end. clear. intros x. induction x as [|o x IH]; [reflexivity|exact IH].
Qed.
Example C61_ex : let r := fold_left rrun [RTtl 5; RType NS; RData (DNS [[97]]); RTtl 7] (rr_new [] A CIN 1 (DA 1)) in
  rr_ttl r = 7 /\ rr_type r = NS /\ rr_data r = DNS [[97]] /\ rr_class r = CIN /\ exists bs, rr_to_bytes ex_cfg r = Ok bs.
Proof. cbn zeta. repeat split; try reflexivity. eexists. vm_compute. reflexivity. Qed.
Print Assumptions C61_question.
Print Assumptions C61_record.
Print Assumptions C61_new.
Print Assumptions C61_data_raw.

(** ** C62: false as stated: keys that differ compare as equal, and so do parameters with the same key *)
Theorem C62_key_refuted : ~ ord_contract (fun _ => True) pkey_cmp.
Proof. intros (H & _). assert (E : KPrivate 0 = KMandatory) by (apply H; [exact I|exact I|reflexivity]). discriminate E. Qed.
Theorem C62_param_refuted : ~ ord_contract (fun p => exists n, p = PPort n) param_cmp.
Proof. intros (H & _). assert (E : PPort 1 = PPort 2) by (apply H; [eauto|eauto|reflexivity]). discriminate E. Qed.
(** Proved: for the keys that have a number of their own it is a total order in agreement with equality,
    and the parameters of a received record are in increasing order, one for each key. *)
Theorem C62_keys_partial : ord_contract pkey_documented pkey_cmp.
Proof. exact pkey_ord. Qed.
Theorem C62_received_partial : forall (c : cfg) (d : bytes) (q : nat) (x : svcb) (b : buf), byte_list d -> allocatable d -> (q <= length d)%nat ->
  svcb_try_from c (mkbuf d q) = (Ok x, b) -> one_per_key (sv_params x).
Proof.
  intros c d q x b B A L E. apply (svcb_iff c d q x b B A L) in E. destruct E as (k & ps & _ & _ & _ & S & _). unfold one_per_key.
  revert S. generalize (sv_params x) as l. induction l as [|a l IH]; intros S; [constructor|].
  destruct S as [F S]. constructor; [exact (IH S)|]. eapply Forall_impl; [|exact F].
  intros y Y. unfold param_cmp, pkey_cmp. apply N.compare_lt_iff. exact Y.
Qed.
Example C62_ex : let d := [0; 1; 0; 0; 3; 0; 2; 0; 80; 0; 1; 0; 0] in byte_list d /\ allocatable d /\
  svcb_try_from ex_cfg (buf_from d) = (Ok (mkSvcb 1 [] [PAlpn []; PPort 80]), mkbuf d 13) /\ pkey_documented (KPrivate 65280).
Proof. cbn zeta. split; [repeat constructor|]. split; [unfold allocatable; cbn; lia|]. split; [vm_compute; reflexivity|cbn; lia]. Qed.
Print Assumptions C62_key_refuted.
Print Assumptions C62_param_refuted.
Print Assumptions C62_keys_partial.
Print Assumptions C62_received_partial.

(** ** C63: DHCID digests (RFC 4701, 3.5: SHA-256 of the identifier and the canonical wire form of the
    name).  The name is not brought into lower case. *)
Theorem C63_case_refuted : exists (sha256 : bytes -> bytes) (f g : fqdn), same_name f g /\
  dhcid_digest (dhcid_new sha256 Chaddr [1] f) <> dhcid_digest (dhcid_new sha256 Chaddr [1] g).
Proof. exists (fun x => x), [[65]], [[97]]. split; [reflexivity|]. vm_compute. discriminate. Qed.
Theorem C63_digest_partial : forall (sha256 : bytes -> bytes) (i : idtype) (identifier : bytes) (f : fqdn),
  Forall (fun l : bytes => (1 <= length l <= 255)%nat) f -> Forall (Forall (fun o => fold_case o = o)) f ->
  dhcid_code (dhcid_new sha256 i identifier f) = i /\
  dhcid_digest (dhcid_new sha256 i identifier f) = sha256 (identifier ++ flat_map (fun l => N.of_nat (length l) :: map fold_case l) f ++ [0]).
Proof.
  intros sha i x f L C. split; [reflexivity|]. unfold dhcid_new. cbn [dhcid_digest]. rewrite C05_wire_format by exact L. f_equal. f_equal. f_equal.
  clear L. induction C as [|l f H C IH]; [reflexivity|]. cbn [flat_map]. rewrite IH. f_equal. f_equal. clear -H.
  induction H as [|o l E H IH]; [reflexivity|]. cbn [map]. now rewrite E, <- IH.
Qed.
(** Exactly, for every name: the digest is that of the name in the spelling given.  So two names are certain to have
    the same digest only if they are spelled the same. *)
Theorem C63_exact_partial : forall (i : idtype) (identifier : bytes) (f : fqdn),
  Forall (fun l : bytes => (1 <= length l <= 255)%nat) f ->
  (forall sha256 : bytes -> bytes, dhcid_digest (dhcid_new sha256 i identifier f) = sha256 (identifier ++ flat_map (fun l => N.of_nat (length l) :: l) f ++ [0])) /\
  (forall g : fqdn, Forall (fun l : bytes => (1 <= length l <= 255)%nat) g ->
     ((forall sha256 : bytes -> bytes, dhcid_digest (dhcid_new sha256 i identifier f) = dhcid_digest (dhcid_new sha256 i identifier g)) <-> f = g)).
Proof.
  intros i x f L. split.
  - intros sha. unfold dhcid_new. cbn [dhcid_digest]. rewrite C05_wire_format by exact L. reflexivity.
  - intros g L'. split; [|intros ->; reflexivity]. intros H. specialize (H (fun y => y)). unfold dhcid_new in H. cbn [dhcid_digest] in H.
    apply app_inv_head in H. rewrite !C05_wire_format in H by assumption. apply (wire_injective f L g L').
    assert (Y : forall z : fqdn, Forall upto255 z -> flat_map label_bytes z = flat_map (fun l : bytes => N.of_nat (length l) :: l) z).
    { induction 1 as [|l z U Z IH]; [reflexivity|]. cbn [flat_map]. rewrite IH. unfold label_bytes, len8, u8. unfold upto255 in U. rewrite N.mod_small by lia. reflexivity. }
    rewrite !Y by assumption. exact H.
Qed.
Example C63_ex : Forall (Forall (fun o => fold_case o = o)) (fqdn_new [97; 46; 98]) /\
  dhcid_digest (dhcid_new (fun x => x) Chaddr [7] (fqdn_new [97; 46; 98])) = [7; 1; 97; 1; 98; 0].
Proof. split; [repeat constructor|reflexivity]. Qed.
Print Assumptions C63_case_refuted.
Print Assumptions C63_digest_partial.
Print Assumptions C63_exact_partial.

(** ** C64: names are ordered from their first label on, not from their last as RFC 4034, 6.1, and by
    octets, upper case before lower case. *)
Theorem C64_canonical_refuted : exists f g : fqdn, f = fqdn_new [97; 46; 98] /\ g = fqdn_new [98; 46; 97] /\ fqdn_cmp f g = Lt /\ canonically_before g f.
Proof. exists [[97]; [98]], [[98]; [97]]. repeat split. apply before_here, before_here. reflexivity. Qed.
Theorem C64_case_refuted : exists f g : fqdn, fqdn_cmp f g = Lt /\ same_name f g.
Proof. exists [[65]], [[97]]. split; reflexivity. Qed.
(** Proved: it is a total order in agreement with [==], the lexicographic one; for names of one label in
    lower case the canonical one. *)
Theorem C64_order_partial : ord_contract (fun _ => True) fqdn_cmp /\ forall f g, fqdn_cmp f g = Lt <-> before (before N.lt) f g.
Proof. split; [exact fqdn_ord|exact fqdn_lt]. Qed.
Lemma before_irreflexive {X} (lt : X -> X -> Prop) : (forall x, ~ lt x x) -> forall a, ~ before lt a a.
Proof. intros I a. induction a as [|x a IH]; intros H; inversion H; subst; [eapply I; eassumption|auto]. Qed.
Lemma before_behind {X} (lt : X -> X -> Prop) : (forall x, ~ lt x x) -> forall p a b, before lt (p ++ a) (p ++ b) <-> before lt a b.
Proof.
  intros I p a b. induction p as [|x p IH]; cbn [app]; [reflexivity|]. rewrite <- IH. split; [|apply before_later].
  intros H. inversion H; subst; [exfalso; eapply I; eassumption|assumption].
Qed.
(** Names with the same parent, in lower case, are in canonical order. *)
Theorem C64_siblings_partial : forall (l k : bytes) (f : fqdn), Forall (Forall (fun o => fold_case o = o)) (l :: k :: f) ->
  fqdn_cmp (l :: f) (k :: f) = Lt <-> canonically_before (l :: f) (k :: f).
Proof.
  intros l k f F. rewrite fqdn_lt. unfold canonically_before.
  assert (E : forall x : bytes, Forall (fun o => fold_case o = o) x -> map fold_case x = x).
  { clear. intros x H. induction H as [|o x E H IH]; cbn [map]; congruence. }
  pose proof (Forall_inv F) as L. apply Forall_inv_tail in F. pose proof (Forall_inv F) as K. apply Forall_inv_tail in F.
  cbn [map rev]. rewrite (E l L), (E k K). assert (I : forall x : bytes, ~ before N.lt x x) by (apply before_irreflexive; intros; lia).
  rewrite before_behind by exact I. split; intros H.
  - inversion H; subst; [apply before_here; assumption|exfalso; eapply (before_irreflexive (before N.lt)); eassumption].
  - inversion H; subst; [apply before_here; assumption|]. match goal with H : before _ [] [] |- _ => inversion H end.
Qed.
(** For any two names the order is the canonical one of the names turned round, once they are in lower case. *)
Theorem C64_reversed_partial : forall f g : fqdn, Forall (Forall (fun o => fold_case o = o)) f -> Forall (Forall (fun o => fold_case o = o)) g ->
  fqdn_cmp f g = Lt <-> canonically_before (rev f) (rev g).
Proof.
  assert (E : forall f : fqdn, Forall (Forall (fun o => fold_case o = o)) f -> map (map fold_case) f = f).
  { intros f H. induction H as [|l f E H IH]; cbn [map]; [reflexivity|]. rewrite IH. f_equal. clear - E. induction E as [|o x E H IH]; cbn [map]; congruence. }
  intros f g F G. rewrite fqdn_lt. unfold canonically_before. assert (R : forall f : fqdn, Forall (Forall (fun o => fold_case o = o)) f -> rev (map (map fold_case) (rev f)) = f) by (clear - E; intros f F; rewrite <- map_rev, rev_involutive; apply E, F).
  rewrite (R f F), (R g G). reflexivity.
Qed.
Example C64_ex : fqdn_cmp (fqdn_new [97; 46; 99]) (fqdn_new [97; 98; 46; 99]) = Lt /\ Forall (Forall (fun o => fold_case o = o)) [[97]; [97; 98]; [99]].
Proof. split; [reflexivity|repeat constructor]. Qed.
Print Assumptions C64_canonical_refuted.
Print Assumptions C64_case_refuted.
Print Assumptions C64_order_partial.
Print Assumptions C64_siblings_partial.
Print Assumptions C64_reversed_partial.
