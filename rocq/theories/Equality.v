(** * [==] between values of the library: what [derive(PartialEq)] makes.

    For a struct, all fields are compared; for an enum, the variants and then their fields.  [Vec], [String],
    arrays, [Option], numbers and addresses compare their values.  [BTreeSet] compares lengths and then the
    elements pairwise in increasing order, so that it is [vec_eqb] on the lists that model them. *)
From Verif Require Import Base Buffer Fqdn Types Header RDataBasic RDataSec Svcb Bitmap RData Packet Dnssec Api.

(** [PartialEq] of [Vec] and of [BTreeSet], standard library. *)
Fixpoint vec_eqb {X} (eqb : X -> X -> bool) (a b : list X) : bool :=
  match a, b with
  | [], [] => true
  | x :: a', y :: b' => eqb x y && vec_eqb eqb a' b'
  | _, _ => false
  end.
(** [PartialEq] of [Option]. *)
Definition option_eqb {X} (eqb : X -> X -> bool) (a b : option X) : bool :=
  match a, b with None, None => true | Some x, Some y => eqb x y | _, _ => false end.
(** opt.rs:26: [PartialEq] of [HashMap]: as many entries, and [other.get(k) == Some(v)] for each entry of self. *)
Fixpoint opt_get (k : N) (m : opt) : option bytes :=
  match m with [] => None | (k', v) :: m' => if k =? k' then Some v else opt_get k m' end.
Definition opt_eqb (a b : opt) : bool :=
  (length a =? length b)%nat && forallb (fun e => option_eqb bytes_eqb (opt_get (fst e) b) (Some (snd e))) a.

(** resource.rs:64. *)
Definition rtype_eqb (a b : rtype) : bool :=
  match a, b with
  | A, A => true | NS, NS => true | CNAME, CNAME => true | SOA, SOA => true | NULL, NULL => true
  | WKS, WKS => true | PTR, PTR => true | HINFO, HINFO => true | MINFO, MINFO => true | MX, MX => true
  | TXT, TXT => true | AAAA, AAAA => true | LOC, LOC => true | SRV, SRV => true | NAPTR, NAPTR => true
  | OPT, OPT => true | APL, APL => true | DS, DS => true | SSHFP, SSHFP => true | IPSECKEY, IPSECKEY => true
  | RRSIG, RRSIG => true | NSEC, NSEC => true | DNSKEY, DNSKEY => true | DHCID, DHCID => true
  | TLSA, TLSA => true | HIP, HIP => true | CDS, CDS => true | CDNSKEY, CDNSKEY => true
  | OPENPGPKEY, OPENPGPKEY => true | CSYNC, CSYNC => true | SVCB, SVCB => true | EUI48, EUI48 => true
  | EUI64, EUI64 => true | TKEY, TKEY => true | TSIG, TSIG => true | URI, URI => true | CAA, CAA => true
  | _, _ => false
  end.
(** question.rs:73. *)
Definition qtype_eqb (a b : qtype) : bool :=
  match a, b with
  | QT x0, QT y0 => rtype_eqb x0 y0 | AXFR, AXFR => true | MAILB, MAILB => true | MAILA, MAILA => true
  | QT_ANY, QT_ANY => true
  | _, _ => false
  end.
(** question.rs:12. *)
Definition qclass_eqb (a b : qclass) : bool :=
  match a, b with
  | QIN, QIN => true | QCS, QCS => true | QCH, QCH => true | QHS, QHS => true | QNONE, QNONE => true
  | QANY, QANY => true
  | _, _ => false
  end.
(** resource.rs:12. *)
Definition rclass_eqb (a b : rclass) : bool :=
  match a, b with
  | CIN, CIN => true | CCS, CCS => true | CCH, CCH => true | CHS, CHS => true
  | UdpPayloadSize x0, UdpPayloadSize y0 => N.eqb x0 y0
  | _, _ => false
  end.
(** header.rs:219; the attribute [bitfield] makes it an array of two octets, which are compared. *)
Definition flags_eqb (a b : flags) : bool :=
  (raw a =? raw b).
(** header.rs:244. *)
Definition opcode_eqb (a b : opcode) : bool :=
  match a, b with
  | StandardQuery, StandardQuery => true | InverseQuery, InverseQuery => true
  | ServerStatusRequest, ServerStatusRequest => true | OpReserved, OpReserved => true
  | _, _ => false
  end.
(** header.rs:269. *)
Definition response_code_eqb (a b : response_code) : bool :=
  match a, b with
  | NoError, NoError => true | FormatError, FormatError => true | ServerFailure, ServerFailure => true
  | NameError, NameError => true | NotImplemented, NotImplemented => true | Refused, Refused => true
  | YXDomain, YXDomain => true | YXRRSet, YXRRSet => true | NXRRSet, NXRRSet => true
  | NotAuth, NotAuth => true | NotZone, NotZone => true
  | _, _ => false
  end.
(** header.rs:32. *)
Definition header_eqb (a b : header) : bool :=
  (id a =? id b) && flags_eqb (hflags a) (hflags b) && (ques_count a =? ques_count b) && (ans_count a =? ans_count b) && (auth_count a =? auth_count b) && (add_count a =? add_count b).
(** rdata/mod.rs:89. *)
Definition alg_eqb (a b : alg) : bool :=
  match a, b with
  | AlgReserved, AlgReserved => true | AlgRSA, AlgRSA => true | AlgDSA, AlgDSA => true
  | AlgECDSA, AlgECDSA => true | AlgEd25519, AlgEd25519 => true | AlgEd448, AlgEd448 => true
  | _, _ => false
  end.
(** apl.rs:109. *)
Definition afd_eqb (a b : afd) : bool :=
  match a, b with
  | AfdV4 x0, AfdV4 y0 => N.eqb x0 y0 | AfdV6 x0, AfdV6 y0 => N.eqb x0 y0
  | _, _ => false
  end.
(** apl.rs:19. *)
Definition apl_eqb (a b : apl) : bool :=
  (apl_prefix a =? apl_prefix b) && Bool.eqb (apl_n a) (apl_n b) && afd_eqb (apl_afd a) (apl_afd b).
(** caa.rs:11. *)
Definition caa_eqb (a b : caa) : bool :=
  Bool.eqb (caa_critical a) (caa_critical b) && bytes_eqb (caa_tag a) (caa_tag b) && bytes_eqb (caa_value a) (caa_value b).
(** dhcid.rs:104. *)
Definition idtype_eqb (a b : idtype) : bool :=
  match a, b with
  | Chaddr, Chaddr => true | ClientId, ClientId => true | DUID, DUID => true
  | _, _ => false
  end.
(** dhcid.rs:27. *)
Definition dhcid_eqb (a b : dhcid) : bool :=
  idtype_eqb (dhcid_code a) (dhcid_code b) && bytes_eqb (dhcid_digest a) (dhcid_digest b).
(** hinfo.rs:13. *)
Definition hinfo_eqb (a b : hinfo) : bool :=
  bytes_eqb (hinfo_cpu a) (hinfo_cpu b) && bytes_eqb (hinfo_os a) (hinfo_os b).
(** hip.rs:9. *)
Definition hip_eqb (a b : hip) : bool :=
  alg_eqb (hip_alg a) (hip_alg b) && bytes_eqb (hip_hit a) (hip_hit b) && bytes_eqb (hip_pk a) (hip_pk b) && option_eqb (vec_eqb fqdn_eqb) (hip_rv a) (hip_rv b).
(** ipseckey.rs:103. *)
Definition gateway_eqb (a b : gateway) : bool :=
  match a, b with
  | GwNone, GwNone => true | GwV4 x0, GwV4 y0 => N.eqb x0 y0 | GwV6 x0, GwV6 y0 => N.eqb x0 y0
  | GwDomain x0, GwDomain y0 => fqdn_eqb x0 y0
  | _, _ => false
  end.
(** ipseckey.rs:14. *)
Definition ipseckey_eqb (a b : ipseckey) : bool :=
  (ip_prec a =? ip_prec b) && alg_eqb (ip_alg a) (ip_alg b) && gateway_eqb (ip_gw a) (ip_gw b) && bytes_eqb (ip_pk a) (ip_pk b).
(** loc.rs:14. *)
Definition loc_eqb (a b : loc) : bool :=
  (loc_version a =? loc_version b) && (loc_size a =? loc_size b) && (loc_horiz a =? loc_horiz b) && (loc_vert a =? loc_vert b) && (loc_lat a =? loc_lat b) && (loc_long a =? loc_long b) && (loc_alt a =? loc_alt b).
(** minfo.rs:13. *)
Definition minfo_eqb (a b : minfo) : bool :=
  fqdn_eqb (minfo_r a) (minfo_r b) && fqdn_eqb (minfo_e a) (minfo_e b).
(** mx.rs:13. *)
Definition mx_eqb (a b : mx) : bool :=
  (mx_pref a =? mx_pref b) && fqdn_eqb (mx_exchange a) (mx_exchange b).
(** naptr.rs:176. *)
Definition nflag_eqb (a b : nflag) : bool :=
  match a, b with
  | FlS, FlS => true | FlA, FlA => true | FlU, FlU => true | FlP, FlP => true
  | _, _ => false
  end.
(** naptr.rs:16. *)
Definition naptr_eqb (a b : naptr) : bool :=
  (na_order a =? na_order b) && (na_pref a =? na_pref b) && vec_eqb nflag_eqb (na_flags a) (na_flags b) && bytes_eqb (na_service a) (na_service b) && bytes_eqb (na_regexp a) (na_regexp b) && fqdn_eqb (na_repl a) (na_repl b).
(** soa.rs:13. *)
Definition soa_eqb (a b : soa) : bool :=
  fqdn_eqb (soa_mname a) (soa_mname b) && fqdn_eqb (soa_rname a) (soa_rname b) && (soa_serial a =? soa_serial b) && (soa_refresh a =? soa_refresh b) && (soa_retry a =? soa_retry b) && (soa_expire a =? soa_expire b) && (soa_minimum a =? soa_minimum b).
(** srv.rs:14. *)
Definition srv_eqb (a b : srv) : bool :=
  (srv_prio a =? srv_prio b) && (srv_weight a =? srv_weight b) && (srv_port a =? srv_port b) && fqdn_eqb (srv_target a) (srv_target b).
(** sshfp.rs:68. *)
Definition fptype_eqb (a b : fptype) : bool :=
  match a, b with
  | FpReserved, FpReserved => true | FpSHA1, FpSHA1 => true
  | _, _ => false
  end.
(** sshfp.rs:11. *)
Definition sshfp_eqb (a b : sshfp) : bool :=
  alg_eqb (ssh_alg a) (ssh_alg b) && fptype_eqb (ssh_type a) (ssh_type b) && bytes_eqb (ssh_fp a) (ssh_fp b).
(** tlsa.rs:95. *)
Definition cert_usage_eqb (a b : cert_usage) : bool :=
  match a, b with
  | CuCa, CuCa => true | CuService, CuService => true | CuTrustAnchor, CuTrustAnchor => true
  | CuDomainIssued, CuDomainIssued => true
  | _, _ => false
  end.
(** tlsa.rs:128. *)
Definition selector_eqb (a b : selector) : bool :=
  match a, b with
  | SelFull, SelFull => true | SelSpki, SelSpki => true
  | _, _ => false
  end.
(** tlsa.rs:155. *)
Definition matching_eqb (a b : matching) : bool :=
  match a, b with
  | MtExact, MtExact => true | MtSHA256, MtSHA256 => true | MtSHA512, MtSHA512 => true
  | _, _ => false
  end.
(** tlsa.rs:12. *)
Definition tlsa_eqb (a b : tlsa) : bool :=
  cert_usage_eqb (tlsa_usage a) (tlsa_usage b) && selector_eqb (tlsa_sel a) (tlsa_sel b) && matching_eqb (tlsa_match a) (tlsa_match b) && bytes_eqb (tlsa_data a) (tlsa_data b).
(** tkey.rs:104. *)
Definition tkmode_eqb (a b : tkmode) : bool :=
  match a, b with
  | TmServer, TmServer => true | TmDH, TmDH => true | TmGss, TmGss => true | TmResolver, TmResolver => true
  | TmDelete, TmDelete => true | TmAvailable x0, TmAvailable y0 => N.eqb x0 y0
  | _, _ => false
  end.
(** tkey.rs:143. *)
Definition tkerr_eqb (a b : tkerr) : bool :=
  match a, b with
  | TeNone, TeNone => true | TeRcode x0, TeRcode y0 => N.eqb x0 y0 | TeBadSig, TeBadSig => true
  | TeBadKey, TeBadKey => true | TeBadTime, TeBadTime => true | TeBadMode, TeBadMode => true
  | TeBadName, TeBadName => true | TeBadAlg, TeBadAlg => true
  | _, _ => false
  end.
(** tkey.rs:9. *)
Definition tkey_eqb (a b : tkey) : bool :=
  fqdn_eqb (tk_alg a) (tk_alg b) && (tk_inc a =? tk_inc b) && (tk_exp a =? tk_exp b) && tkmode_eqb (tk_mode a) (tk_mode b) && tkerr_eqb (tk_err a) (tk_err b) && bytes_eqb (tk_key a) (tk_key b) && bytes_eqb (tk_other a) (tk_other b).
(** tsig.rs:123. *)
Definition tserr_eqb (a b : tserr) : bool :=
  match a, b with
  | TsNone, TsNone => true | TsBadSig, TsBadSig => true | TsBadKey, TsBadKey => true
  | TsBadTime, TsBadTime => true | TsBadTrunc, TsBadTrunc => true
  | _, _ => false
  end.
(** tsig.rs:18. *)
Definition tsig_eqb (a b : tsig) : bool :=
  fqdn_eqb (ts_alg a) (ts_alg b) && (ts_time a =? ts_time b) && (ts_fudge a =? ts_fudge b) && bytes_eqb (ts_mac a) (ts_mac b) && (ts_id a =? ts_id b) && tserr_eqb (ts_err a) (ts_err b) && bytes_eqb (ts_other a) (ts_other b).
(** uri.rs:20. *)
Definition uri_eqb (a b : uri) : bool :=
  (uri_prio a =? uri_prio b) && (uri_weight a =? uri_weight b) && bytes_eqb (uri_target a) (uri_target b).
(** wks.rs:25. *)
Definition wks_eqb (a b : wks) : bool :=
  (wks_addr a =? wks_addr b) && (wks_proto a =? wks_proto b) && bytes_eqb (wks_bitmap a) (wks_bitmap b).
(** dnssec.rs:936. *)
Definition digest_type_eqb (a b : digest_type) : bool :=
  match a, b with
  | DtSHA1, DtSHA1 => true | DtSHA256, DtSHA256 => true | DtSHA384, DtSHA384 => true
  | DtSHA512, DtSHA512 => true
  | _, _ => false
  end.
(** dnssec.rs:21. *)
Definition nsec_eqb (a b : nsec) : bool :=
  fqdn_eqb (ns_next a) (ns_next b) && vec_eqb rtype_eqb (ns_types a) (ns_types b).
(** dnssec.rs:217. *)
Definition dnskey_eqb (a b : dnskey) : bool :=
  Bool.eqb (dk_zone a) (dk_zone b) && Bool.eqb (dk_sep a) (dk_sep b) && (dk_protocol a =? dk_protocol b) && salg_eqb (dk_alg a) (dk_alg b) && bytes_eqb (dk_pk a) (dk_pk b).
(** dnssec.rs:329. *)
Definition ds_eqb (a b : ds) : bool :=
  (ds_tag a =? ds_tag b) && salg_eqb (ds_alg a) (ds_alg b) && digest_type_eqb (ds_dt a) (ds_dt b) && bytes_eqb (ds_digest a) (ds_digest b).
(** dnssec.rs:425. *)
Definition rrsig_eqb (a b : rrsig) : bool :=
  rtype_eqb (rs_type a) (rs_type b) && salg_eqb (rs_alg a) (rs_alg b) && (rs_labels a =? rs_labels b) && (rs_ttl a =? rs_ttl b) && (rs_exp a =? rs_exp b) && (rs_inc a =? rs_inc b) && (rs_tag a =? rs_tag b) && fqdn_eqb (rs_signer a) (rs_signer b) && bytes_eqb (rs_sig a) (rs_sig b).
(** csync.rs:38, 182. *)
Definition csync_eqb (a b : csync) : bool :=
  (cs_serial a =? cs_serial b) && N.eqb (cs_flags a) (cs_flags b) && vec_eqb rtype_eqb (cs_types a) (cs_types b).
(** svcb.rs:108. *)
Definition pkey_eqb (a b : pkey) : bool :=
  match a, b with
  | KMandatory, KMandatory => true | KAlpn, KAlpn => true | KNoDefaultAlpn, KNoDefaultAlpn => true
  | KPort, KPort => true | KIpV4Hint, KIpV4Hint => true | KEch, KEch => true | KIpV6Hint, KIpV6Hint => true
  | KPrivate x0, KPrivate y0 => N.eqb x0 y0 | KInvalid, KInvalid => true
  | _, _ => false
  end.
(** svcb.rs:168. *)
Definition param_eqb (a b : param) : bool :=
  match a, b with
  | PMandatory x0, PMandatory y0 => vec_eqb pkey_eqb x0 y0 | PAlpn x0, PAlpn y0 => vec_eqb bytes_eqb x0 y0
  | PNoDefaultAlpn, PNoDefaultAlpn => true | PPort x0, PPort y0 => N.eqb x0 y0
  | PIpV4Hint x0, PIpV4Hint y0 => N.eqb x0 y0 | PEch x0, PEch y0 => bytes_eqb x0 y0
  | PIpV6Hint x0, PIpV6Hint y0 => N.eqb x0 y0
  | PPrivate x0 x1, PPrivate y0 y1 => N.eqb x0 y0 && bytes_eqb x1 y1 | PInvalid, PInvalid => true
  | _, _ => false
  end.
(** svcb.rs:18. *)
Definition svcb_eqb (a b : svcb) : bool :=
  (sv_prio a =? sv_prio b) && fqdn_eqb (sv_target a) (sv_target b) && vec_eqb param_eqb (sv_params a) (sv_params b).
(** rdata/mod.rs:129; the types around one value, such as [A] and [Null], compare this value (a.rs:12, aaaa.rs:14, cname.rs:20, ns.rs:20, ptr.rs:15, null.rs:13, txt.rs:10, eui48.rs:10, eui64.rs:10, openpgpkey.rs:15). *)
Definition rdata_eqb (a b : rdata) : bool :=
  match a, b with
  | DA x0, DA y0 => N.eqb x0 y0 | DNS x0, DNS y0 => fqdn_eqb x0 y0 | DCNAME x0, DCNAME y0 => fqdn_eqb x0 y0
  | DSOA x0, DSOA y0 => soa_eqb x0 y0 | DNULL x0, DNULL y0 => bytes_eqb x0 y0
  | DWKS x0, DWKS y0 => wks_eqb x0 y0 | DPTR x0, DPTR y0 => fqdn_eqb x0 y0
  | DHINFO x0, DHINFO y0 => hinfo_eqb x0 y0 | DMINFO x0, DMINFO y0 => minfo_eqb x0 y0
  | DMX x0, DMX y0 => mx_eqb x0 y0 | DTXT x0, DTXT y0 => vec_eqb bytes_eqb x0 y0
  | DAAAA x0, DAAAA y0 => N.eqb x0 y0 | DLOC x0, DLOC y0 => loc_eqb x0 y0
  | DSRV x0, DSRV y0 => srv_eqb x0 y0 | DNAPTR x0, DNAPTR y0 => naptr_eqb x0 y0
  | DOPT x0, DOPT y0 => opt_eqb x0 y0 | DAPL x0, DAPL y0 => apl_eqb x0 y0 | DDS x0, DDS y0 => ds_eqb x0 y0
  | DSSHFP x0, DSSHFP y0 => sshfp_eqb x0 y0 | DIPSECKEY x0, DIPSECKEY y0 => ipseckey_eqb x0 y0
  | DRRSIG x0, DRRSIG y0 => rrsig_eqb x0 y0 | DNSEC x0, DNSEC y0 => nsec_eqb x0 y0
  | DDNSKEY x0, DDNSKEY y0 => dnskey_eqb x0 y0 | DDHCID x0, DDHCID y0 => dhcid_eqb x0 y0
  | DTLSA x0, DTLSA y0 => tlsa_eqb x0 y0 | DHIP x0, DHIP y0 => hip_eqb x0 y0
  | DCDS x0, DCDS y0 => ds_eqb x0 y0 | DCDNSKEY x0, DCDNSKEY y0 => dnskey_eqb x0 y0
  | DOPENPGPKEY x0, DOPENPGPKEY y0 => bytes_eqb x0 y0 | DCSYNC x0, DCSYNC y0 => csync_eqb x0 y0
  | DSVCB x0, DSVCB y0 => svcb_eqb x0 y0 | DEUI48 x0, DEUI48 y0 => bytes_eqb x0 y0
  | DEUI64 x0, DEUI64 y0 => bytes_eqb x0 y0 | DTKEY x0, DTKEY y0 => tkey_eqb x0 y0
  | DTSIG x0, DTSIG y0 => tsig_eqb x0 y0 | DURI x0, DURI y0 => uri_eqb x0 y0
  | DCAA x0, DCAA y0 => caa_eqb x0 y0
  | _, _ => false
  end.
(** question.rs:247. *)
Definition question_eqb (a b : question) : bool :=
  fqdn_eqb (q_name a) (q_name b) && qtype_eqb (q_type a) (q_type b) && qclass_eqb (q_class a) (q_class b) && Bool.eqb (q_unicast a) (q_unicast b).
(** resource.rs:271. *)
Definition rr_eqb (a b : rr) : bool :=
  fqdn_eqb (rr_name a) (rr_name b) && rtype_eqb (rr_type a) (rr_type b) && Bool.eqb (rr_flush a) (rr_flush b) && rclass_eqb (rr_class a) (rr_class b) && (rr_ttl a =? rr_ttl b) && rdata_eqb (rr_data a) (rr_data b).
(** packet.rs:26. *)
Definition packet_eqb (a b : packet) : bool :=
  header_eqb (p_header a) (p_header b) && vec_eqb question_eqb (p_questions a) (p_questions b) && vec_eqb rr_eqb (p_answers a) (p_answers b) && vec_eqb rr_eqb (p_authorities a) (p_authorities b) && vec_eqb rr_eqb (p_additionals a) (p_additionals b).
