(** * Specification: which record data values exist, and which can be carried on the wire.

    [rdata_typed]: what the Rust types of the fields guarantee, for every value a program can build.
    [rdata_fits]: the conditions under which the value has a wire form of its own (length fields wide
    enough, legal labels, readable codes, values that do not alias another one). *)
From Verif Require Import Base Utf8 Buffer Fqdn Types RDataBasic Bitmap Svcb RDataSec RData BaseFacts
  FqdnFacts CodeSpec.

Definition U8 (n : N) : Prop := n < 256.
Definition U16 (n : N) : Prop := n < 65536.
Definition U32 (n : N) : Prop := n < 4294967296.
Definition U48 (n : N) : Prop := n < 281474976710656.
Definition U64 (n : N) : Prop := n < 18446744073709551616.
Definition U128 (n : N) : Prop := n < 340282366920938463463374607431768211456.
(** A Rust [String]. *)
Definition text (s : bytes) : Prop := utf8_valid s = true.
(** A byte string that a one-octet (two-octet) length can describe. *)
Definition short (s : bytes) : Prop := (length s <= 255)%nat.
Definition short16 (s : bytes) : Prop := N.of_nat (length s) <= 65535.

(** ** What the Rust types guarantee *)
Definition afd_typed (a : afd) : Prop := match a with AfdV4 x => U32 x | AfdV6 x => U128 x end.
Definition gateway_typed (g : gateway) : Prop :=
  match g with GwNone | GwDomain _ => True | GwV4 x => U32 x | GwV6 x => U128 x end.
Definition tset_typed (c : cfg) (ts : tset) : Prop :=
  sorted_by rtype_code ts /\ Forall (fun t => rtype_exists c t = true) ts.
Definition pkey_typed (k : pkey) : Prop := match k with KPrivate n => U16 n | _ => True end.
Definition param_typed (p : param) : Prop :=
  match p with
  | PMandatory ks => sorted_by pkey_code ks /\ Forall pkey_typed ks
  | PPort n => U16 n
  | PIpV4Hint a => U32 a
  | PIpV6Hint a => U128 a
  | PPrivate n _ => U16 n
  | PAlpn _ | PNoDefaultAlpn | PEch _ | PInvalid => True
  end.

Definition rdata_typed (c : cfg) (d : rdata) : Prop :=
  rtype_exists c (rdata_type d) = true /\
  match d with
  | DA a => U32 a
  | DNS _ | DCNAME _ | DPTR _ | DMINFO _ => True
  | DSOA x => U32 (soa_serial x) /\ U32 (soa_refresh x) /\ U32 (soa_retry x) /\ U32 (soa_expire x) /\
              U32 (soa_minimum x)
  | DNULL _ | DOPENPGPKEY _ | DHINFO _ | DSSHFP _ | DDHCID _ | DTLSA _ | DHIP _ => True
  | DWKS x => U32 (wks_addr x) /\ U8 (wks_proto x)
  | DMX x => U16 (mx_pref x)
  | DTXT l => Forall text l
  | DAAAA a => U128 a
  | DLOC x => (U8 (loc_version x) /\ U8 (loc_size x) /\ U8 (loc_horiz x) /\ U8 (loc_vert x)) /\
              U32 (loc_lat x) /\ U32 (loc_long x) /\ U32 (loc_alt x)
  | DSRV x => U16 (srv_prio x) /\ U16 (srv_weight x) /\ U16 (srv_port x)
  | DNAPTR x => U16 (na_order x) /\ U16 (na_pref x) /\ text (na_regexp x)
  | DOPT m => NoDup (map fst m) /\ Forall (fun e => U16 (fst e)) m
  | DAPL x => U8 (apl_prefix x) /\ afd_typed (apl_afd x)
  | DDS x | DCDS x => U16 (ds_tag x)
  | DIPSECKEY x => U8 (ip_prec x) /\ gateway_typed (ip_gw x)
  | DRRSIG x => rtype_exists c (rs_type x) = true /\ U8 (rs_labels x) /\ U32 (rs_ttl x) /\ U32 (rs_exp x) /\
                U32 (rs_inc x) /\ U16 (rs_tag x)
  | DNSEC x => tset_typed c (ns_types x)
  | DDNSKEY x | DCDNSKEY x => U8 (dk_protocol x)
  | DCSYNC x => U32 (cs_serial x) /\ cs_flags x < 4 /\ tset_typed c (cs_types x)
  | DSVCB x => U16 (sv_prio x) /\ sorted_by param_code (sv_params x) /\ Forall param_typed (sv_params x)
  | DEUI48 b => length b = 6%nat
  | DEUI64 b => length b = 8%nat
  | DTKEY x => U32 (tk_inc x) /\ U32 (tk_exp x) /\
               match tk_mode x with TmAvailable n => U16 n | _ => True end /\
               match tk_err x with TeRcode n => U16 n | _ => True end
  | DTSIG x => U64 (ts_time x) /\ U16 (ts_fudge x) /\ U16 (ts_id x)
  | DURI x => U16 (uri_prio x) /\ U16 (uri_weight x)
  | DCAA x => text (caa_tag x)
  end.

(** ** What the wire format can carry *)
Definition tset_fits (c : cfg) (ts : tset) : Prop := Forall (decodable c) ts.
Definition param_fits (p : param) : Prop :=
  match p with
  | PMandatory ks => Forall pkey_documented ks /\ N.of_nat (length ks) <= 32765
  | PAlpn ids => Forall short ids /\ N.of_nat (length (flat_map char_string ids)) <= 65531
  | PEch b => N.of_nat (length b) <= 65531
  | PPrivate n b => pkey_documented (KPrivate n) /\ N.of_nat (length b) <= 65531
  | PNoDefaultAlpn | PPort _ | PIpV4Hint _ | PIpV6Hint _ | PInvalid => True
  end.

Definition rdata_fits (c : cfg) (d : rdata) : Prop :=
  match d with
  | DA _ | DAAAA _ | DWKS _ | DNULL _ | DOPENPGPKEY _ | DLOC _ | DAPL _ | DDS _ | DCDS _ | DDNSKEY _
  | DCDNSKEY _ | DDHCID _ | DTLSA _ | DEUI48 _ | DEUI64 _ | DURI _ => True
  | DNS f | DCNAME f | DPTR f => fqdn_ok f
  | DSOA x => fqdn_ok (soa_mname x) /\ fqdn_ok (soa_rname x)
  | DHINFO x => short (hinfo_cpu x) /\ short (hinfo_os x)
  | DMINFO x => fqdn_ok (minfo_r x) /\ fqdn_ok (minfo_e x)
  | DMX x => fqdn_ok (mx_exchange x)
  | DTXT l => Forall short l
  | DSRV x => fqdn_ok (srv_target x)
  | DNAPTR x => (length (na_flags x) <= 255)%nat /\ short (na_service x) /\ short (na_regexp x) /\
                fqdn_ok (na_repl x)
  | DOPT m => Forall (fun e => short16 (snd e)) m
  | DSSHFP _ => False
  | DIPSECKEY x => match ip_gw x with GwDomain f => fqdn_ok f | _ => True end
  | DRRSIG x => decodable c (rs_type x) /\ fqdn_ok (rs_signer x)
  | DNSEC x => fqdn_ok (ns_next x) /\ tset_fits c (ns_types x)
  | DHIP x => short (hip_hit x) /\ short16 (hip_pk x) /\
              match hip_rv x with Some l => l <> [] /\ Forall fqdn_ok l | None => True end
  | DCSYNC x => tset_fits c (cs_types x)
  | DSVCB x => fqdn_ok (sv_target x) /\ Forall param_fits (sv_params x)
  | DTKEY x => fqdn_ok (tk_alg x) /\ tkmode_documented (tk_mode x) /\ tkerr_documented (tk_err x) /\
               short16 (tk_key x) /\ short16 (tk_other x)
  | DTSIG x => fqdn_ok (ts_alg x) /\ U48 (ts_time x) /\ short16 (ts_mac x) /\ short16 (ts_other x)
  | DCAA x => caa_tag x <> [] /\ short (caa_tag x)
  end.

(** ** Where [byte_size] is right *)
Definition size_exact (d : rdata) : Prop :=
  match d with
  | DOPT _ | DRRSIG _ => False
  | DCAA x => caa_tag x = []
  | DSVCB x => sv_params x = []
  | _ => True
  end.
(** By how much [byte_size] differs from the number of octets written. *)
Definition size_error (d : rdata) : Z :=
  match d with
  | DOPT m => 2 - 4 * Z.of_nat (length m)
  | DRRSIG _ => -1
  | DCAA x => - Z.of_nat (length (caa_tag x))
  | DSVCB x => 4 * Z.of_nat (length (sv_params x))
  | _ => 0
  end%Z.

(** ** What can be written at all *)

(** Serialising record data only fails (panics) in SVCB parameters of 65532 octets or more, in builds
    with overflow checks. *)
Definition param_writable (c : cfg) (p : param) : Prop :=
  ovf c = false \/ 4 <= N.of_nat (param_byte_size p) mod 65536.
Definition rdata_writable (c : cfg) (d : rdata) : Prop :=
  match d with DSVCB x => Forall (param_writable c) (sv_params x) | _ => True end.
