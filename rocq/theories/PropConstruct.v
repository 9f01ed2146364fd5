(** * Property C68: what is passed to a constructor is what goes on the wire *)
From Coq Require Import Lia ZifyNat ZifyN Sorting.Permutation Sorting.Sorted.
From Verif Require Import Base Buffer Fqdn Header Types RDataBasic Bitmap Svcb RDataSec RData Packet BaseFacts FqdnFacts HeaderSpec CodeSpec RDataSpec RDataFacts
  RecordSpec FieldSpec LayoutSpec LayoutFacts LayoutUnique Api ObjectSpec Construct ConstructSpec Dnssec DnssecSpec DnssecFacts PropRecord PropLayout PropDnssec.

Lemma plain_type c t : dnssec_only t = false -> rtype_exists c t = true.
Proof. unfold rtype_exists. intros ->. apply orb_true_r. Qed.
Lemma made_typed c k : args_typed c k -> rdata_typed c (into_record_data (made k)).
Proof.
  intros H. destruct k; unfold args_typed in H; unfold rdata_typed, made, into_record_data;
    try (split; [apply plain_type; reflexivity|exact H || exact I]).
  - split; [apply plain_type; reflexivity|]. destruct H as (H & T). split; [exact H|]. split; [destruct immediate, soa_minimum; reflexivity|exact T].
  - split; [unfold rtype_exists; rewrite (proj1 H); reflexivity|exact (proj2 H)].
  - split; [unfold rtype_exists; rewrite H; reflexivity|reflexivity].
  - split; [unfold rtype_exists; rewrite (proj1 H); reflexivity|exact (proj2 H)].
  - split; [unfold rtype_exists; rewrite (proj1 H); reflexivity|exact (proj2 H)].
Qed.
Lemma made_fits k : args_fit k -> layout_ok (into_record_data (made k)).
Proof. destruct k; cbn; intros H; exact H || exact I. Qed.
Lemma made_fields k : rfc_fields (into_record_data (made k)) = asked k.
Proof. destruct k; try reflexivity. destruct immediate, soa_minimum; reflexivity. Qed.

(** A registered number that is known is a number. *)
Lemma registered_number w (s : N -> Prop) n : (forall m, s m <-> m = n) -> forall bs, field_octets (Registered w s) bs <-> field_octets (Number w n) bs.
Proof.
  intros S bs. split; intros H.
  - apply registered_inv in H. destruct H as (L & B & V). apply S in V. constructor; assumption.
  - apply number_inv in H. destruct H as (L & B & V). apply (f_registered w s n); try assumption. apply S. reflexivity.
Qed.
Lemma fields_congr f g fs gs : (forall bs, field_octets f bs <-> field_octets g bs) -> (forall bs, fields_octets fs bs <-> fields_octets gs bs) ->
  forall bs, fields_octets (f :: fs) bs <-> fields_octets (g :: gs) bs.
Proof.
  intros F G bs. split; intros H; apply fs_cons_inv in H; destruct H as (a & b & -> & X & Y); (constructor; [apply F, X|apply G, Y]).
Qed.
Lemma type_number s m : number_in iana_types (record_type s) m <-> m = payload_number s.
Proof.
  destruct s; unfold number_in; cbn [record_type payload_number iana_types]; (split; [|intros ->; cbn; tauto]);
    cbn [In]; intros H; repeat (destruct H as [H|H]; [injection H; intros; (congruence || (exfalso; discriminate))|]); contradiction.
Qed.
Lemma class_flag c k m : (exists n, class_number k n /\ m = n + flag (mdns c && false) 32768) <-> class_number k m.
Proof.
  rewrite andb_false_r. cbn [flag]. split; [intros (n & H & ->); rewrite N.add_0_r; exact H|intros H; exists m; split; [exact H|rewrite N.add_0_r; reflexivity]].
Qed.
Lemma made_record c f cl ttl k bs : args_typed c k -> args_fit k -> size_exact (into_record_data (made k)) ->
  legal_name f -> match cl with UdpPayloadSize n => n < 32768 | _ => True end -> U32 ttl ->
  (forall d, fields_octets (asked k) d -> N.of_nat (length d) < 65536) ->
  rr_to_bytes c (rr_new f (record_type (made k)) cl ttl (into_record_data (made k))) = Ok bs <->
  fields_octets [DomainName f; Number 2 (payload_number (made k)); Registered 2 (class_number cl); Number 4 ttl; Prefixed 2 (asked k)] bs.
Proof.
  intros T F X Lf K U Len. rewrite C56_record_partial.
  - unfold record_fields, rr_new. cbn [rr_name rr_type rr_class rr_flush rr_ttl rr_data]. rewrite made_fields. revert bs.
    apply fields_congr; [tauto|]. apply fields_congr; [apply registered_number; intros; apply type_number|]. apply fields_congr; [|tauto].
    intros bs. split; intros H; apply registered_inv in H; destruct H as (L & B & V); apply (f_registered 2 _ (value_of bs)); try assumption; try reflexivity;
      apply (class_flag c); exact V.
  - apply made_typed, T.
  - exact X.
  - unfold record_layout_ok. cbn [rr_name rr_type rr_class rr_flush rr_ttl rr_data rr_new]. split; [exact Lf|]. split; [exact K|]. split; [exact U|].
    split; [apply made_fits, F|]. intros d E. apply Len. rewrite <- made_fields. apply (layout_exact c); [apply made_typed, T|apply made_fits, F|exact E].
Qed.

Lemma made_written c ks : Forall (args_typed c) ks -> Forall args_fit ks ->
  exists w, Forall2 (fun d b => rdata_to_bytes c d = Ok b) (map (fun k => into_record_data (made k)) ks) w /\ Forall2 (fun k d => fields_octets (asked k) d) ks w.
Proof.
  induction 1 as [|k ks T _ IH]; intros F; [exists []; split; constructor|]. inversion F as [|? ? Fk Fs]; subst. destruct (IH Fs) as (w & W & A).
  destruct (layout_ok_bytes c _ (made_typed c k T) (made_fits k Fk)) as (b & E & L). rewrite made_fields in L.
  exists (b :: w). split; cbn [map]; (apply Forall2_cons; [assumption|assumption]).
Qed.
Lemma Forall2_swap {X Y} (R : X -> Y -> Prop) l a : Forall2 R l a -> Forall2 (fun y x => R x y) a l.
Proof. induction 1; constructor; assumption. Qed.
Lemma made_set c bs f t cl ttl ks : search_contract bs -> Forall (args_typed c) ks -> Forall args_fit ks ->
  legal_name f -> match cl with UdpPayloadSize n => n < 65536 | _ => True end -> U32 ttl ->
  Forall (fun k => forall d, fields_octets (asked k) d -> N.of_nat (length d) < 65536) ks ->
  exists ks' data out, Permutation ks ks' /\ Forall2 (fun k d => fields_octets (asked k) d) ks' data /\ in_order data /\
    rrset_to_bytes c bs (rrset_new f t cl ttl (map (fun k => into_record_data (made k)) ks)) = Ok out /\
    fields_octets (flat_map (fun k => [DomainName f; Registered 2 (number_in iana_types t); Registered 2 (class_number cl); Number 4 ttl; Prefixed 2 (asked k)]) ks') out.
Proof.
  intros C T F Lf K U Len. destruct (made_written c ks T F) as (w & W & A).
  destruct (sorted_records_ok c bs C _ [] w (SSorted_nil _) W) as (data & E & S & Pm). cbn [app] in Pm. symmetry in Pm.
  destruct (Forall2_perm _ w data Pm ks (Forall2_swap _ _ _ A)) as (ks' & A' & Pk). apply Forall2_swap in A'. cbn beta in A'.
  exists ks', data, (flat_map (full_record (rrset_new f t cl ttl (map (fun k => into_record_data (made k)) ks))) data). split; [exact Pk|]. split; [exact A'|]. split; [exact S|].
  split; [unfold rrset_to_bytes; cbn [set_records rrset_new] in *; rewrite E; cbn [rbind]; f_equal; apply flat_map_ext; apply member_eq|].
  assert (Len' : Forall (fun k => forall d, fields_octets (asked k) d -> N.of_nat (length d) < 65536) ks').
  { rewrite Forall_forall in *. intros k I. apply Len. apply (Permutation_in _ (Permutation_sym Pk)), I. }
  clear - A' Len' Lf K U. induction A' as [|k d ks' data H A IH]; [constructor|]. inversion Len' as [|? ? L Ls]; subst. specialize (L d H).
  cbn [flat_map]. apply fs_app; [|apply IH, Ls]. unfold full_record at 1, rrset_new. cbn [set_name set_type set_class set_ttl].
  apply f_more; [apply f_fqdn, Lf|]. apply f_more; [apply f_reg; [apply LayoutFacts.type_number; reflexivity|destruct t; reflexivity]|].
  apply f_more; [apply f_reg; [unfold class_number; destruct cl; cbn; tauto|destruct cl; cbn; try reflexivity; exact K]|].
  apply f_more; [apply f_be; exact U|]. apply f_one. apply f_pref16; [reflexivity|exact L|exact H].
Qed.

(** The record data written for the struct that a constructor returns consists of its arguments, each in its
    field, and of nothing else. *)
Theorem C68_octets_partial : forall (c : cfg) (k : call), args_typed c k -> args_fit k ->
  exists bs, rdata_to_bytes c (into_record_data (made k)) = Ok bs /\ fields_octets (asked k) bs /\
             forall bs', fields_octets (asked k) bs' -> bs' = bs.
Proof. intros c k T F. rewrite <- made_fields. apply C51_layout_partial; [apply made_typed, T|apply made_fits, F]. Qed.
(** So does the whole record, plain form (see C24 for the data whose size is computed wrongly). *)
Theorem C68_record_partial : forall (c : cfg) (name : list bytes) (cl : rclass) (ttl : N) (k : call) (bs : bytes),
  args_typed c k -> args_fit k -> size_exact (into_record_data (made k)) ->
  legal_name name -> match cl with UdpPayloadSize n => n < 32768 | _ => True end -> U32 ttl ->
  (forall d, fields_octets (asked k) d -> N.of_nat (length d) < 65536) ->
  rr_to_bytes c (rr_new name (record_type (made k)) cl ttl (into_record_data (made k))) = Ok bs <->
  fields_octets [DomainName name; Number 2 (payload_number (made k)); Registered 2 (class_number cl); Number 4 ttl; Prefixed 2 (asked k)] bs.
Proof. exact made_record. Qed.
(** And a set of such records: every record with the owner, type, class and TTL passed to
    [ResourceRecordSet::new], the records in canonical order (RFC 4034, 6.3), each as often as it was passed.
    [bs]: the binary search of the standard library. *)
Theorem C68_set_partial : forall (c : cfg) (bs : bsearch) (name : list bytes) (t : rtype) (cl : rclass) (ttl : N) (ks : list call),
  search_contract bs -> Forall (args_typed c) ks -> Forall args_fit ks ->
  legal_name name -> match cl with UdpPayloadSize n => n < 65536 | _ => True end -> U32 ttl ->
  Forall (fun k => forall d, fields_octets (asked k) d -> N.of_nat (length d) < 65536) ks ->
  exists (ks' : list call) (data : list bytes) (out : bytes), Permutation ks ks' /\ Forall2 (fun k d => fields_octets (asked k) d) ks' data /\ in_order data /\
    rrset_to_bytes c bs (rrset_new name t cl ttl (map (fun k => into_record_data (made k)) ks)) = Ok out /\
    fields_octets (flat_map (fun k => [DomainName name; Registered 2 (number_in iana_types t); Registered 2 (class_number cl); Number 4 ttl; Prefixed 2 (asked k)]) ks') out.
Proof. exact made_set. Qed.
Example C68_ex_set : search_contract linear_search /\
  rrset_to_bytes ex_cfg linear_search (rrset_new [[97]] A CIN 7 (map (fun k => into_record_data (made k)) [NewA 258; NewA 1])) =
  Ok ([1; 97; 0; 0; 1; 0; 1; 0; 0; 0; 7; 0; 4; 0; 0; 0; 1] ++ [1; 97; 0; 0; 1; 0; 1; 0; 0; 0; 7; 0; 4; 0; 0; 1; 2]).
Proof. split; [exact linear_search_ok|reflexivity]. Qed.
(** Addresses: the number given is the number got back; on the wire it is the value of the 4 or 16 octets. *)
Theorem C68_address : forall (c : cfg) (n : N),
  (u32_from_a (a_from_u32 n) = n /\ a_inner (a_new n) = n /\ a_into_inner (a_from_addr n) = n /\ forall y, a_inner (a_inner_mut y n) = n) /\
  (u128_from_aaaa (aaaa_from_u128 n) = n /\ aaaa_inner (aaaa_new n) = n /\ aaaa_into_inner (aaaa_from_addr n) = n /\ forall y, aaaa_inner (aaaa_inner_mut y n) = n) /\
  (forall pre bs : bytes, length bs = 4%nat -> byte_list bs ->
     exists x b, rdata_from c A (mkbuf (pre ++ bs) (length pre)) = (Ok (DA x), b) /\ u32_from_a x = value_of bs) /\
  (forall pre bs : bytes, length bs = 16%nat -> byte_list bs ->
     exists x b, rdata_from c AAAA (mkbuf (pre ++ bs) (length pre)) = (Ok (DAAAA x), b) /\ u128_from_aaaa x = value_of bs).
Proof.
  intros c n. split; [repeat split|]. split; [repeat split|]. split.
  all: intros pre bs L B; pose proof (unbe_bound bs B) as U; rewrite L in U; exists (unbe bs); pose proof (be_unbe bs B) as W; rewrite L in W.
  - destruct (C23_rdata_roundtrip_partial c (DA (unbe bs))) as (w & E & R); [split; [apply plain_type; reflexivity|exact U]|exact I|].
    assert (w = bs) as -> by (unfold rdata_to_bytes, a_to_bytes in E; congruence). eexists. split; [apply R|reflexivity].
  - destruct (C23_rdata_roundtrip_partial c (DAAAA (unbe bs))) as (w & E & R); [split; [apply plain_type; reflexivity|exact U]|exact I|].
    assert (w = bs) as -> by (unfold rdata_to_bytes, aaaa_to_bytes in E; congruence). eexists. split; [apply R|reflexivity].
Qed.
(** A key is for DNSSEC (RFC 4034, 2.1.2) when its third octet says so, as it does for every key of [DnsKey::new],
    which is neither a zone key nor an entry point until that is set.  The key tag and the signature of a
    signature are the arguments of those names. *)
Theorem C68_keys : forall (c : cfg) (k : dnskey) (bs : bytes) (a : salg) (pk : bytes),
  (rdata_to_bytes c (DDNSKEY k) = Ok bs -> dk_protocol k < 256 -> (dnskey_valid_protocol k = true <-> nth 2 bs 0 = 3) /\ dnskey_protocol k = nth 2 bs 0) /\
  (let n := dnskey_new a pk in dnskey_valid_protocol n = true /\ dnskey_protocol n = 3 /\ dk_zone n = false /\ dk_sep n = false) /\
  (forall t l ttl ex inc tag f s, let r := rrsig_new t a l ttl ex inc tag f s in rrsig_key_tag r = tag /\ rrsig_signature r = s).
Proof.
  intros c k bs a pk. split; [|repeat split]. intros E U. unfold rdata_to_bytes, dnskey_to_bytes in E. injection E as <-.
  unfold dnskey_valid_protocol, dnskey_protocol. split; [|reflexivity]. apply N.eqb_eq.
Qed.
Example C68_ex : let k := NewSoa [[110]] [[104]; [97]] 1 2 3 4 5 in args_typed ex_cfg k /\ args_fit k /\ size_exact (into_record_data (made k)) /\
  (forall d, fields_octets (asked k) d -> N.of_nat (length d) < 65536) /\
  rdata_to_bytes ex_cfg (into_record_data (made k)) = Ok [1; 110; 0; 1; 104; 1; 97; 0; 0; 0; 0; 1; 0; 0; 0; 2; 0; 0; 0; 3; 0; 0; 0; 4; 0; 0; 0; 5].
Proof.
  cbn zeta. assert (T : args_typed ex_cfg (NewSoa [[110]] [[104]; [97]] 1 2 3 4 5)) by (repeat split; reflexivity).
  assert (F : args_fit (NewSoa [[110]] [[104]; [97]] 1 2 3 4 5)) by (split; repeat constructor; cbn; lia).
  split; [exact T|]. split; [exact F|]. split; [exact I|]. split; [|reflexivity]. intros d H.
  destruct (C68_octets_partial _ _ T F) as (bs & E & _ & Un). apply Un in H. subst d. injection E as <-. reflexivity.
Qed.
Print Assumptions C68_octets_partial.
Print Assumptions C68_record_partial.
Print Assumptions C68_set_partial.
Print Assumptions C68_address.
Print Assumptions C68_keys.
