(** * The object API around the wire format: constructors, setters and conversions of questions,
    records, record data and SVCB keys. *)
From Verif Require Import Base Buffer Fqdn Header Types RDataBasic Bitmap Svcb RDataSec RData Packet.

(** ** question.rs:276-278, 284-286, 292-294, 301-304 (feature [mdns]). *)
Definition question_set_name (q : question) (f : fqdn) : question := mkQ f (q_type q) (q_class q) (q_unicast q).
Definition question_set_type (q : question) (t : qtype) : question := mkQ (q_name q) t (q_class q) (q_unicast q).
Definition question_set_class (q : question) (k : qclass) : question := mkQ (q_name q) (q_type q) k (q_unicast q).
Definition question_set_unicast (q : question) (b : bool) : question := mkQ (q_name q) (q_type q) (q_class q) b.

(** ** resource.rs:315-317, 323-325, 332-335 (feature [mdns]), 341-343, 349-351, 357-359 and 365-367.
    [data_mut] hands out a reference through which the caller may leave any data behind, which is what
    [set_data] does. *)
Definition rr_set_name (r : rr) (f : fqdn) : rr := mkRR f (rr_type r) (rr_flush r) (rr_class r) (rr_ttl r) (rr_data r).
Definition rr_set_type (r : rr) (t : rtype) : rr := mkRR (rr_name r) t (rr_flush r) (rr_class r) (rr_ttl r) (rr_data r).
Definition rr_set_flush (r : rr) (b : bool) : rr := mkRR (rr_name r) (rr_type r) b (rr_class r) (rr_ttl r) (rr_data r).
Definition rr_set_class (r : rr) (k : rclass) : rr := mkRR (rr_name r) (rr_type r) (rr_flush r) k (rr_ttl r) (rr_data r).
Definition rr_set_ttl (r : rr) (n : N) : rr := mkRR (rr_name r) (rr_type r) (rr_flush r) (rr_class r) n (rr_data r).
Definition rr_set_data (r : rr) (d : rdata) : rr := mkRR (rr_name r) (rr_type r) (rr_flush r) (rr_class r) (rr_ttl r) d.
(** resource.rs:361-363, 369-371. *)
Definition rr_take_data (r : rr) : rdata := rr_data r.
Definition rr_data_raw (c : cfg) (r : rr) : res bytes := rdata_to_bytes c (rr_data r).

(** ** rdata/mod.rs:78-85, [trait RData]: the structs that implement it.  There is one for each record
    type except CDS and CDNSKEY. *)
Inductive payload :=
| SA (x : N) | SNs (x : fqdn) | SCname (x : fqdn) | SSoa (x : soa) | SNull (x : bytes) | SWks (x : wks)
| SPtr (x : fqdn) | SHinfo (x : hinfo) | SMinfo (x : minfo) | SMx (x : mx) | STxt (x : txt) | SAaaa (x : N)
| SLoc (x : loc) | SSrv (x : srv) | SNaptr (x : naptr) | SOpt (x : opt) | SApl (x : apl) | SDs (x : ds)
| SSshfp (x : sshfp) | SIpSecKey (x : ipseckey) | SRrsig (x : rrsig) | SNsec (x : nsec) | SDnsKey (x : dnskey)
| SDhcid (x : dhcid) | STlsa (x : tlsa) | SHip (x : hip) | SOpenPgpKey (x : bytes) | SCsync (x : csync)
| SSvcb (x : svcb) | SEui48 (x : bytes) | SEui64 (x : bytes) | STkey (x : tkey) | STsig (x : tsig)
| SUri (x : uri) | SCaa (x : caa).

(** [RData::record_type]: a.rs:42, ns.rs:42, cname.rs:42, soa.rs:86, null.rs:35, wks.rs:61, ptr.rs:45,
    hinfo.rs:37, minfo.rs:51, mx.rs:46, txt.rs:35, aaaa.rs:46, loc.rs:103, srv.rs:77, naptr.rs:112,
    opt.rs:45, apl.rs:85, dnssec.rs:45, 294, 395, 698, sshfp.rs:45, ipseckey.rs:64, dhcid.rs:81,
    tlsa.rs:71, hip.rs:66, openpgpkey.rs:27, csync.rs:111, svcb.rs:74, eui48.rs:22, eui64.rs:22,
    tkey.rs:71, tsig.rs:89, uri.rs:65, caa.rs:60. *)
Definition record_type (s : payload) : rtype :=
  match s with
  | SA _ => A | SNs _ => NS | SCname _ => CNAME | SSoa _ => SOA | SNull _ => NULL | SWks _ => WKS | SPtr _ => PTR
  | SHinfo _ => HINFO | SMinfo _ => MINFO | SMx _ => MX | STxt _ => TXT | SAaaa _ => AAAA | SLoc _ => LOC
  | SSrv _ => SRV | SNaptr _ => NAPTR | SOpt _ => OPT | SApl _ => APL | SDs _ => DS | SSshfp _ => SSHFP
  | SIpSecKey _ => IPSECKEY | SRrsig _ => RRSIG | SNsec _ => NSEC | SDnsKey _ => DNSKEY | SDhcid _ => DHCID
  | STlsa _ => TLSA | SHip _ => HIP | SOpenPgpKey _ => OPENPGPKEY | SCsync _ => CSYNC | SSvcb _ => SVCB
  | SEui48 _ => EUI48 | SEui64 _ => EUI64 | STkey _ => TKEY | STsig _ => TSIG | SUri _ => URI | SCaa _ => CAA
  end.
(** [RData::into_record_data]: a.rs:46, ns.rs:46, cname.rs:46, soa.rs:90, null.rs:39, wks.rs:65,
    ptr.rs:49, hinfo.rs:41, minfo.rs:55, mx.rs:50, txt.rs:39, aaaa.rs:50, loc.rs:107, srv.rs:81,
    naptr.rs:116, opt.rs:49, apl.rs:89, dnssec.rs:49, 298, 399, 702, sshfp.rs:49, ipseckey.rs:68,
    dhcid.rs:85, tlsa.rs:75, hip.rs:70, openpgpkey.rs:31, csync.rs:115, svcb.rs:78, eui48.rs:26,
    eui64.rs:26, tkey.rs:75, tsig.rs:93, uri.rs:69, caa.rs:64. *)
Definition into_record_data (s : payload) : rdata :=
  match s with
  | SA x => DA x | SNs x => DNS x | SCname x => DCNAME x | SSoa x => DSOA x | SNull x => DNULL x | SWks x => DWKS x
  | SPtr x => DPTR x | SHinfo x => DHINFO x | SMinfo x => DMINFO x | SMx x => DMX x | STxt x => DTXT x
  | SAaaa x => DAAAA x | SLoc x => DLOC x | SSrv x => DSRV x | SNaptr x => DNAPTR x | SOpt x => DOPT x
  | SApl x => DAPL x | SDs x => DDS x | SSshfp x => DSSHFP x | SIpSecKey x => DIPSECKEY x | SRrsig x => DRRSIG x
  | SNsec x => DNSEC x | SDnsKey x => DDNSKEY x | SDhcid x => DDHCID x | STlsa x => DTLSA x | SHip x => DHIP x
  | SOpenPgpKey x => DOPENPGPKEY x | SCsync x => DCSYNC x | SSvcb x => DSVCB x | SEui48 x => DEUI48 x
  | SEui64 x => DEUI64 x | STkey x => DTKEY x | STsig x => DTSIG x | SUri x => DURI x | SCaa x => DCAA x
  end.

(** ** [PartialEq] and [Ord].  svcb.rs:108, 156-166, [ParamKey]; 168, 289-299, [Param]; fqdn.rs:17,
    [FQDN]; [derive(PartialEq)] compares field by field, hence is equality of the model's values. *)
Definition pkey_cmp (a b : pkey) : comparison := pkey_code a ?= pkey_code b.
Definition param_cmp (a b : param) : comparison := pkey_cmp (param_key a) (param_key b).
Fixpoint bytes_eqb (a b : bytes) : bool :=
  match a, b with
  | [], [] => true
  | x :: a', y :: b' => (x =? y) && bytes_eqb a' b'
  | _, _ => false
  end.
Fixpoint fqdn_eqb (f g : fqdn) : bool :=
  match f, g with
  | [], [] => true
  | l :: f', k :: g' => bytes_eqb l k && fqdn_eqb f' g'
  | _, _ => false
  end.
(** [derive(PartialOrd, Ord)] of [FQDN]: the lexicographic order of [Vec<Vec<u8>>]. *)
Fixpoint lex {X} (cmp : X -> X -> comparison) (a b : list X) : comparison :=
  match a, b with
  | [], [] => Eq
  | [], _ :: _ => Lt
  | _ :: _, [] => Gt
  | x :: a', y :: b' => match cmp x y with Eq => lex cmp a' b' | r => r end
  end.
Definition fqdn_cmp : fqdn -> fqdn -> comparison := lex (lex N.compare).
