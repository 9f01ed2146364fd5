(** * Specification: the RDATA of each type, field by field, as the defining RFCs draw it.

    Only the value types are taken from the model, none of its encoders. *)
From Coq Require Import Sorting.Sorted.
From Verif Require Import Base Header Types RDataBasic Bitmap Svcb RDataSec RData Packet BaseFacts CodeSpec HeaderSpec FieldSpec.

Inductive field : Type :=
| Number (width : nat) (v : N)                      (** an integer of [width] octets, most significant first *)
| Registered (width : nat) (such : N -> Prop)       (** the same for an assigned number *)
| DomainName (f : list bytes)                       (** RFC 1035, 3.1, uncompressed *)
| CharString (s : bytes)                            (** RFC 1035, 3.3: one length octet *)
| Octets (b : bytes)
| TypeBitMaps (ts : list rtype)                     (** RFC 4034, 4.1.2 *)
| AddressPart (n : bool) (w : nat) (a : N)            (** RFC 3123, 4: N and AFDLENGTH in one octet, AFDPART *)
| Prefixed (width : nat) (fs : list field).         (** the length of the fields, then the fields *)

Definition flag (b : bool) (v : N) : N := if b then v else 0.
Definition value_of (bs : bytes) : N := fold_left (fun a o => a * 256 + o) bs 0.
(** RFC 3123, 4: the address without its trailing zero octets, [w] octets wide. *)
Inductive afd_octets (w : nat) (a : N) : bytes -> Prop :=
| afd_part bs k : (length bs + k)%nat = w -> byte_list bs -> value_of (bs ++ repeat 0 k) = a -> last bs 1 <> 0 -> afd_octets w a bs.
Inductive name_octets : list bytes -> bytes -> Prop :=
| root_octet : name_octets [] [0]
| label_octets l f bs : (1 <= length l <= 63)%nat -> name_octets f bs -> name_octets (l :: f) (N.of_nat (length l) :: l ++ bs).

Inductive field_octets : field -> bytes -> Prop :=
| f_number w v bs : length bs = w -> byte_list bs -> value_of bs = v -> field_octets (Number w v) bs
| f_registered w (such : N -> Prop) v bs : such v -> length bs = w -> byte_list bs -> value_of bs = v -> field_octets (Registered w such) bs
| f_name f bs : name_octets f bs -> field_octets (DomainName f) bs
| f_string s : (length s <= 255)%nat -> field_octets (CharString s) (N.of_nat (length s) :: s)
| f_octets b : field_octets (Octets b) b
| f_bitmaps ts ws : windows_ok ws -> windows_minimal ws ->
    (forall n, marked ws n <-> exists t, In t ts /\ In (t, n) iana_types) -> field_octets (TypeBitMaps ts) (flat_map window_octets ws)
| f_address n w a bs : afd_octets w a bs -> field_octets (AddressPart n w a) (flag n 128 + N.of_nat (length bs) :: bs)
| f_prefixed w fs l bs : fields_octets fs bs -> length l = w -> byte_list l -> value_of l = N.of_nat (length bs) ->
    field_octets (Prefixed w fs) (l ++ bs)
with fields_octets : list field -> bytes -> Prop :=
| f_none : fields_octets [] []
| f_more f fs a bs : field_octets f a -> fields_octets fs bs -> fields_octets (f :: fs) (a ++ bs).

Definition number_in {X} (table : list (X * N)) (x : X) : N -> Prop := fun n => In (x, n) table.

(** RFC 4025, 2.3 and 2.5: gateway type, gateway. *)
Definition gateway_number (g : gateway) : N := match g with GwNone => 0 | GwV4 _ => 1 | GwV6 _ => 2 | GwDomain _ => 3 end.
Definition gateway_fields (g : gateway) : list field :=
  match g with GwNone => [] | GwV4 a => [Number 4 a] | GwV6 a => [Number 16 a] | GwDomain f => [DomainName f] end.
Definition afd_width (a : afd) : nat := match a with AfdV4 _ => 4 | AfdV6 _ => 16 end.
Definition afd_number (a : afd) : N := match a with AfdV4 x => x | AfdV6 x => x end.
Definition afd_fam (a : afd) : N := match a with AfdV4 _ => 1 | AfdV6 _ => 2 end.

(** RFC 9460, 2.2 and 7: SvcParamValue. *)
Definition param_number (p : param) : N -> Prop := fun n =>
  match p with
  | PMandatory _ => n = 0 | PAlpn _ => n = 1 | PNoDefaultAlpn => n = 2 | PPort _ => n = 3 | PIpV4Hint _ => n = 4 | PEch _ => n = 5
  | PIpV6Hint _ => n = 6 | PPrivate m _ => n = m | PInvalid => n = 65535
  end.
Definition key_number (k : pkey) : N -> Prop := fun n => In (k, n) iana_pkey \/ k = KPrivate n.
Definition param_value (p : param) : list field :=
  match p with
  | PMandatory ks => map (fun k => Registered 2 (key_number k)) ks
  | PAlpn ids => map CharString ids
  | PNoDefaultAlpn | PInvalid => []
  | PPort n => [Number 2 n]
  | PIpV4Hint a => [Number 4 a]
  | PIpV6Hint a => [Number 16 a]
  | PEch b | PPrivate _ b => [Octets b]
  end.

(** The fields of each type. *)
Definition rfc_fields (d : rdata) : list field :=
  match d with
  (* RFC 1035, 3.3 and 3.4 *)
  | DA a => [Number 4 a]
  | DNS f | DCNAME f | DPTR f => [DomainName f]
  | DSOA x => [DomainName (soa_mname x); DomainName (soa_rname x); Number 4 (soa_serial x); Number 4 (soa_refresh x);
               Number 4 (soa_retry x); Number 4 (soa_expire x); Number 4 (soa_minimum x)]
  | DNULL b => [Octets b]
  | DWKS x => [Number 4 (wks_addr x); Number 1 (wks_proto x); Octets (wks_bitmap x)]
  | DHINFO x => [CharString (hinfo_cpu x); CharString (hinfo_os x)]
  | DMINFO x => [DomainName (minfo_r x); DomainName (minfo_e x)]
  | DMX x => [Number 2 (mx_pref x); DomainName (mx_exchange x)]
  | DTXT l => map CharString l
  (* RFC 3596 *)
  | DAAAA a => [Number 16 a]
  (* RFC 1876 *)
  | DLOC x => [Number 1 (loc_version x); Number 1 (loc_size x); Number 1 (loc_horiz x); Number 1 (loc_vert x); Number 4 (loc_lat x);
               Number 4 (loc_long x); Number 4 (loc_alt x)]
  (* RFC 2782 *)
  | DSRV x => [Number 2 (srv_prio x); Number 2 (srv_weight x); Number 2 (srv_port x); DomainName (srv_target x)]
  (* RFC 3403, 4.1 *)
  | DNAPTR x => [Number 2 (na_order x); Number 2 (na_pref x);
                 Prefixed 1 (map (fun f => Registered 1 (number_in iana_nflag f)) (na_flags x));
                 CharString (na_service x); CharString (na_regexp x); DomainName (na_repl x)]
  (* RFC 6891, 6.1.2 *)
  | DOPT m => flat_map (fun e => [Number 2 (fst e); Prefixed 2 [Octets (snd e)]]) m
  (* RFC 3123, 4: one item *)
  | DAPL x => [Number 2 (afd_fam (apl_afd x)); Number 1 (apl_prefix x);
               AddressPart (apl_n x) (afd_width (apl_afd x)) (afd_number (apl_afd x))]
  (* RFC 4034, 5.1 (and 7344) *)
  | DDS x | DCDS x => [Number 2 (ds_tag x); Registered 1 (number_in iana_salg (ds_alg x)); Registered 1 (number_in iana_digest_type (ds_dt x));
             Octets (ds_digest x)]
  (* RFC 4255, 3.1 *)
  | DSSHFP x => [Registered 1 (number_in iana_sshfp_alg (ssh_alg x)); Registered 1 (number_in iana_fptype (ssh_type x)); Octets (ssh_fp x)]
  (* RFC 4025, 2.1 *)
  | DIPSECKEY x => [Number 1 (ip_prec x); Number 1 (gateway_number (ip_gw x)); Registered 1 (number_in iana_ipseckey_alg (ip_alg x))]
                   ++ gateway_fields (ip_gw x) ++ [Octets (ip_pk x)]
  (* RFC 4034, 3.1 *)
  | DRRSIG x => [Registered 2 (number_in iana_types (rs_type x)); Registered 1 (number_in iana_salg (rs_alg x)); Number 1 (rs_labels x);
                 Number 4 (rs_ttl x); Number 4 (rs_exp x); Number 4 (rs_inc x); Number 2 (rs_tag x); DomainName (rs_signer x); Octets (rs_sig x)]
  (* RFC 4034, 4.1 *)
  | DNSEC x => [DomainName (ns_next x); TypeBitMaps (ns_types x)]
  (* RFC 4034, 2.1 (and 7344): bit 7 of the flags is Zone Key, bit 15 is Secure Entry Point *)
  | DDNSKEY x | DCDNSKEY x => [Number 2 (flag (dk_zone x) 256 + flag (dk_sep x) 1); Number 1 (dk_protocol x);
                               Registered 1 (number_in iana_salg (dk_alg x)); Octets (dk_pk x)]
  (* RFC 4701, 3.1: digest type 1 is SHA-256 *)
  | DDHCID x => [Registered 2 (number_in iana_idtype (dhcid_code x)); Number 1 1; Octets (dhcid_digest x)]
  (* RFC 6698, 2.1 *)
  | DTLSA x => [Registered 1 (number_in iana_cert_usage (tlsa_usage x)); Registered 1 (number_in iana_selector (tlsa_sel x));
                Registered 1 (number_in iana_matching (tlsa_match x)); Octets (tlsa_data x)]
  (* RFC 8005, 5 *)
  | DHIP x => [Number 1 (N.of_nat (length (hip_hit x))); Registered 1 (number_in iana_ipseckey_alg (hip_alg x));
               Number 2 (N.of_nat (length (hip_pk x))); Octets (hip_hit x); Octets (hip_pk x)]
              ++ match hip_rv x with Some l => map DomainName l | None => [] end
  (* RFC 7929, 2.3 *)
  | DOPENPGPKEY b => [Octets b]
  (* RFC 7477, 2.1 *)
  | DCSYNC x => [Number 4 (cs_serial x); Number 2 (flag (csync_soa_minimum (cs_flags x)) 2 + flag (csync_immediate (cs_flags x)) 1);
                 TypeBitMaps (cs_types x)]
  (* RFC 9460, 2.2 *)
  | DSVCB x => [Number 2 (sv_prio x); DomainName (sv_target x)]
               ++ flat_map (fun p => [Registered 2 (param_number p); Prefixed 2 (param_value p)]) (sv_params x)
  (* RFC 7043 *)
  | DEUI48 b | DEUI64 b => [Octets b]
  (* RFC 2930, 2 *)
  | DTKEY x => [DomainName (tk_alg x); Number 4 (tk_inc x); Number 4 (tk_exp x);
                Registered 2 (fun n => number_in iana_tkmode (tk_mode x) n \/ tk_mode x = TmAvailable n);
                Registered 2 (fun n => number_in iana_tkerr (tk_err x) n \/ tk_err x = TeRcode n);
                Prefixed 2 [Octets (tk_key x)]; Prefixed 2 [Octets (tk_other x)]]
  (* RFC 8945, 4.2 *)
  | DTSIG x => [DomainName (ts_alg x); Number 6 (ts_time x); Number 2 (ts_fudge x); Prefixed 2 [Octets (ts_mac x)]; Number 2 (ts_id x);
                Registered 2 (number_in iana_tserr (ts_err x)); Prefixed 2 [Octets (ts_other x)]]
  (* RFC 7553, 4.5 *)
  | DURI x => [Number 2 (uri_prio x); Number 2 (uri_weight x); Octets (uri_target x)]
  (* RFC 8659, 4.1: bit 0 of the flags is Issuer Critical *)
  | DCAA x => [Number 1 (flag (caa_critical x) 128); CharString (caa_tag x); Octets (caa_value x)]
  end.

(** The values such fields can hold, and for which the crate's numbers are the registered ones (see C50);
    bitmaps as in C41; no "no gateway" IPSECKEY; no APL address that ends in a zero octet. *)
Definition legal_name (f : list bytes) : Prop := Forall (fun l : bytes => 1 <= length l <= 63)%nat f.
Definition layout_ok (d : rdata) : Prop :=
  match d with
  | DNS f | DCNAME f | DPTR f => legal_name f
  | DSOA x => legal_name (soa_mname x) /\ legal_name (soa_rname x)
  | DHINFO x => (length (hinfo_cpu x) <= 255)%nat /\ (length (hinfo_os x) <= 255)%nat
  | DMINFO x => legal_name (minfo_r x) /\ legal_name (minfo_e x)
  | DMX x => legal_name (mx_exchange x)
  | DTXT l => Forall (fun s : bytes => (length s <= 255)%nat) l
  | DSRV x => legal_name (srv_target x)
  | DNAPTR x => (length (na_flags x) <= 255)%nat /\ (length (na_service x) <= 255)%nat /\ (length (na_regexp x) <= 255)%nat /\
                legal_name (na_repl x)
  | DOPT m => Forall (fun e : N * bytes => N.of_nat (length (snd e)) < 65536) m
  | DAPL x => afd_number (apl_afd x) mod 256 <> 0
  | DDS x | DCDS x => ds_dt x <> DtSHA512
  | DSSHFP x => ssh_alg x <> AlgEd448
  | DIPSECKEY x => (ip_alg x = AlgReserved \/ ip_alg x = AlgECDSA) /\
                   match ip_gw x with GwNone => False | GwDomain f => legal_name f | _ => True end
  | DRRSIG x => legal_name (rs_signer x)
  | DNSEC x => legal_name (ns_next x) /\ exists t n, In t (ns_types x) /\ In (t, n) iana_types /\ n < 256
  | DHIP x => (hip_alg x = AlgReserved \/ hip_alg x = AlgECDSA) /\ (length (hip_hit x) <= 255)%nat /\
              N.of_nat (length (hip_pk x)) < 65536 /\ match hip_rv x with Some l => Forall legal_name l | None => True end
  | DCSYNC x => exists t n, In t (cs_types x) /\ In (t, n) iana_types /\ n < 256
  | DSVCB x => legal_name (sv_target x) /\
      Forall (fun p => match p with
                       | PMandatory ks => N.of_nat (length ks) <= 32765
                       | PAlpn ids => Forall (fun s : bytes => (length s <= 255)%nat) ids /\ N.of_nat (fold_right (fun s n => 1 + length s + n)%nat 0%nat ids) <= 65531
                       | PEch b | PPrivate _ b => N.of_nat (length b) <= 65531
                       | _ => True
                       end) (sv_params x)
  | DTKEY x => legal_name (tk_alg x) /\ N.of_nat (length (tk_key x)) < 65536 /\ N.of_nat (length (tk_other x)) < 65536
  | DTSIG x => legal_name (ts_alg x) /\ ts_time x < 281474976710656 /\ N.of_nat (length (ts_mac x)) < 65536 /\ N.of_nat (length (ts_other x)) < 65536
  | DCAA x => (length (caa_tag x) <= 255)%nat
  | _ => True
  end.

(** ** Messages (RFC 1035, 4.1) *)

(** The header: ID; QR, Opcode, AA, TC, RD; RA, Z, RCODE; four counts. *)
Definition header_fields (v : hview) : list field :=
  [Number 2 (v_id v);
   Number 1 (flag (v_qr v) 128 + 8 * v_opcode v + flag (v_aa v) 4 + flag (v_tc v) 2 + flag (v_rd v) 1);
   Number 1 (flag (v_ra v) 128 + 16 * v_z v + v_rcode v);
   Number 2 (v_qd v); Number 2 (v_an v); Number 2 (v_ns v); Number 2 (v_ar v)].
(** With mDNS (RFC 6762, 5.4 and 10.2) the top bit of a class is a flag. *)
Definition question_fields (c : cfg) (q : question) : list field :=
  [DomainName (q_name q); Registered 2 (number_in iana_qtypes (q_type q));
   Registered 2 (fun n => exists k, In (q_class q, k) iana_qclasses /\ n = k + flag (mdns c && q_unicast q) 32768)].
(** For OPT the class is the payload size (RFC 6891, 6.1.2). *)
Definition class_number (k : rclass) (n : N) : Prop := In (k, n) [(CIN, 1); (CCS, 2); (CCH, 3); (CHS, 4)] \/ k = UdpPayloadSize n.
Definition record_fields (c : cfg) (r : rr) : list field :=
  [DomainName (rr_name r); Registered 2 (number_in iana_types (rr_type r));
   Registered 2 (fun n => exists k, class_number (rr_class r) k /\ n = k + flag (mdns c && rr_flush r) 32768);
   Number 4 (rr_ttl r); Prefixed 2 (rfc_fields (rr_data r))].
(** The whole message; the counts are the lengths of the sections. *)
Definition count {X} (l : list X) : N := N.of_nat (length l).
Definition message_fields (c : cfg) (p : packet) : list field :=
  let v := view (p_header p) in
  header_fields (mkview (v_id v) (v_qr v) (v_opcode v) (v_aa v) (v_tc v) (v_rd v) (v_ra v) (v_z v) (v_rcode v)
                        (count (p_questions p)) (count (p_answers p)) (count (p_authorities p)) (count (p_additionals p)))
  ++ flat_map (question_fields c) (p_questions p) ++ flat_map (record_fields c) (p_answers p)
  ++ flat_map (record_fields c) (p_authorities p) ++ flat_map (record_fields c) (p_additionals p).

Definition question_layout_ok (q : question) : Prop := legal_name (q_name q).
(** A class below 32768 (the top bit is a flag for mDNS), a TTL of 32 bits, data that fits a record. *)
Definition record_layout_ok (c : cfg) (r : rr) : Prop :=
  legal_name (rr_name r) /\ match rr_class r with UdpPayloadSize n => n < 32768 | _ => True end /\ rr_ttl r < 4294967296 /\
  layout_ok (rr_data r) /\ forall bs, rdata_to_bytes c (rr_data r) = Ok bs -> N.of_nat (length bs) < 65536.
