(** * rdata/mod.rs:128-377: [RecordData] and its dispatch. *)
From Verif Require Import Base Buffer Fqdn Types RDataBasic Bitmap Svcb RDataSec.

(** mod.rs:130-174.  The variants DS, RRSIG, NSEC, DNSKEY, CDS, CDNSKEY exist only with feature
    [dnssec]. *)
Inductive rdata :=
| DA (x : N) | DNS (x : fqdn) | DCNAME (x : fqdn) | DSOA (x : soa) | DNULL (x : bytes)
| DWKS (x : wks) | DPTR (x : fqdn) | DHINFO (x : hinfo) | DMINFO (x : minfo) | DMX (x : mx)
| DTXT (x : txt) | DAAAA (x : N) | DLOC (x : loc) | DSRV (x : srv) | DNAPTR (x : naptr)
| DOPT (x : opt) | DAPL (x : apl) | DDS (x : ds) | DSSHFP (x : sshfp) | DIPSECKEY (x : ipseckey)
| DRRSIG (x : rrsig) | DNSEC (x : nsec) | DDNSKEY (x : dnskey) | DDHCID (x : dhcid)
| DTLSA (x : tlsa) | DHIP (x : hip) | DCDS (x : ds) | DCDNSKEY (x : dnskey)
| DOPENPGPKEY (x : bytes) | DCSYNC (x : csync) | DSVCB (x : svcb) | DEUI48 (x : bytes)
| DEUI64 (x : bytes) | DTKEY (x : tkey) | DTSIG (x : tsig) | DURI (x : uri) | DCAA (x : caa).

Definition pmap {A B} (f : A -> B) (p : P A) : P B := a <- p ;; ret (f a).

(** mod.rs:179-225, [RecordData::from].  For a type that does not exist in the build the Rust match
    has no arm (the value cannot exist either); the model keeps the arm. *)
Definition rdata_from (c : cfg) (t : rtype) : P rdata :=
  match t with
  | A => pmap DA a_try_from
  | NS => pmap DNS name_try_from
  | CNAME => pmap DCNAME name_try_from
  | SOA => pmap DSOA soa_try_from
  | NULL => pmap DNULL opaque_try_from
  | WKS => pmap DWKS wks_try_from
  | PTR => pmap DPTR name_try_from
  | HINFO => pmap DHINFO hinfo_try_from
  | MINFO => pmap DMINFO minfo_try_from
  | MX => pmap DMX mx_try_from
  | TXT => pmap DTXT txt_try_from
  | AAAA => pmap DAAAA aaaa_try_from
  | LOC => pmap DLOC loc_try_from
  | SRV => pmap DSRV srv_try_from
  | NAPTR => pmap DNAPTR naptr_try_from
  | OPT => pmap DOPT opt_try_from
  | APL => pmap DAPL apl_try_from
  | DS => pmap DDS ds_try_from
  | SSHFP => pmap DSSHFP sshfp_try_from
  | IPSECKEY => pmap DIPSECKEY ipseckey_try_from
  | RRSIG => pmap DRRSIG (rrsig_try_from c)
  | NSEC => pmap DNSEC (nsec_try_from c)
  | DNSKEY => pmap DDNSKEY dnskey_try_from
  | DHCID => pmap DDHCID dhcid_try_from
  | TLSA => pmap DTLSA tlsa_try_from
  | HIP => pmap DHIP hip_try_from
  | CDS => pmap DCDS ds_try_from
  | CDNSKEY => pmap DCDNSKEY dnskey_try_from
  | OPENPGPKEY => pmap DOPENPGPKEY opaque_try_from
  | CSYNC => pmap DCSYNC (csync_try_from c)
  | SVCB => pmap DSVCB (svcb_try_from c)
  | EUI48 => pmap DEUI48 eui48_try_from
  | EUI64 => pmap DEUI64 eui64_try_from
  | TKEY => pmap DTKEY tkey_try_from
  | TSIG => pmap DTSIG tsig_try_from
  | URI => pmap DURI uri_try_from
  | CAA => pmap DCAA caa_try_from
  end.

(** The type each variant belongs to ([RData::record_type] in each file; for CDS/CDNSKEY the variant
    used by [RecordData::from], since [Ds::record_type] and [DnsKey::record_type] answer DS/DNSKEY). *)
Definition rdata_type (d : rdata) : rtype :=
  match d with
  | DA _ => A | DNS _ => NS | DCNAME _ => CNAME | DSOA _ => SOA | DNULL _ => NULL | DWKS _ => WKS
  | DPTR _ => PTR | DHINFO _ => HINFO | DMINFO _ => MINFO | DMX _ => MX | DTXT _ => TXT
  | DAAAA _ => AAAA | DLOC _ => LOC | DSRV _ => SRV | DNAPTR _ => NAPTR | DOPT _ => OPT
  | DAPL _ => APL | DDS _ => DS | DSSHFP _ => SSHFP | DIPSECKEY _ => IPSECKEY | DRRSIG _ => RRSIG
  | DNSEC _ => NSEC | DDNSKEY _ => DNSKEY | DDHCID _ => DHCID | DTLSA _ => TLSA | DHIP _ => HIP
  | DCDS _ => CDS | DCDNSKEY _ => CDNSKEY | DOPENPGPKEY _ => OPENPGPKEY | DCSYNC _ => CSYNC
  | DSVCB _ => SVCB | DEUI48 _ => EUI48 | DEUI64 _ => EUI64 | DTKEY _ => TKEY | DTSIG _ => TSIG
  | DURI _ => URI | DCAA _ => CAA
  end.

(** mod.rs:229-275. *)
Definition rdata_byte_size (c : cfg) (d : rdata) : res nat :=
  match d with
  | DA x => Ok (a_byte_size x)
  | DNS x | DCNAME x | DPTR x => Ok (name_byte_size x)
  | DSOA x => Ok (soa_byte_size x)
  | DNULL x | DOPENPGPKEY x => Ok (opaque_byte_size x)
  | DWKS x => Ok (wks_byte_size x)
  | DHINFO x => Ok (hinfo_byte_size x)
  | DMINFO x => Ok (minfo_byte_size x)
  | DMX x => Ok (mx_byte_size x)
  | DTXT x => Ok (txt_byte_size x)
  | DAAAA x => Ok (aaaa_byte_size x)
  | DLOC x => Ok (loc_byte_size x)
  | DSRV x => Ok (srv_byte_size x)
  | DNAPTR x => Ok (naptr_byte_size x)
  | DOPT x => Ok (opt_byte_size x)
  | DAPL x => Ok (apl_byte_size x)
  | DDS x | DCDS x => Ok (ds_byte_size x)
  | DSSHFP x => Ok (sshfp_byte_size x)
  | DIPSECKEY x => Ok (ipseckey_byte_size x)
  | DRRSIG x => Ok (rrsig_byte_size x)
  | DNSEC x => nsec_byte_size c x
  | DDNSKEY x | DCDNSKEY x => Ok (dnskey_byte_size x)
  | DDHCID x => Ok (dhcid_byte_size x)
  | DTLSA x => Ok (tlsa_byte_size x)
  | DHIP x => Ok (hip_byte_size x)
  | DCSYNC x => csync_byte_size c x
  | DSVCB x => Ok (svcb_byte_size x)
  | DEUI48 x => Ok (eui48_byte_size x)
  | DEUI64 x => Ok (eui64_byte_size x)
  | DTKEY x => Ok (tkey_byte_size x)
  | DTSIG x => Ok (tsig_byte_size x)
  | DURI x => Ok (uri_byte_size x)
  | DCAA x => Ok (caa_byte_size x)
  end.

(** mod.rs:277-324. *)
Definition rdata_to_bytes (c : cfg) (d : rdata) : res bytes :=
  match d with
  | DA x => Ok (a_to_bytes x)
  | DNS x | DCNAME x | DPTR x => Ok (name_to_bytes x)
  | DSOA x => Ok (soa_to_bytes x)
  | DNULL x | DOPENPGPKEY x => Ok (opaque_to_bytes x)
  | DWKS x => Ok (wks_to_bytes x)
  | DHINFO x => Ok (hinfo_to_bytes x)
  | DMINFO x => Ok (minfo_to_bytes x)
  | DMX x => Ok (mx_to_bytes x)
  | DTXT x => Ok (txt_to_bytes x)
  | DAAAA x => Ok (aaaa_to_bytes x)
  | DLOC x => Ok (loc_to_bytes x)
  | DSRV x => Ok (srv_to_bytes x)
  | DNAPTR x => Ok (naptr_to_bytes x)
  | DOPT x => Ok (opt_to_bytes x)
  | DAPL x => Ok (apl_to_bytes x)
  | DDS x | DCDS x => Ok (ds_to_bytes x)
  | DSSHFP x => Ok (sshfp_to_bytes x)
  | DIPSECKEY x => Ok (ipseckey_to_bytes x)
  | DRRSIG x => Ok (rrsig_to_bytes x)
  | DNSEC x => nsec_to_bytes c x
  | DDNSKEY x | DCDNSKEY x => Ok (dnskey_to_bytes x)
  | DDHCID x => Ok (dhcid_to_bytes x)
  | DTLSA x => Ok (tlsa_to_bytes x)
  | DHIP x => Ok (hip_to_bytes x)
  | DCSYNC x => csync_to_bytes c x
  | DSVCB x => svcb_to_bytes c x
  | DEUI48 x => Ok (eui48_to_bytes x)
  | DEUI64 x => Ok (eui64_to_bytes x)
  | DTKEY x => Ok (tkey_to_bytes x)
  | DTSIG x => Ok (tsig_to_bytes x)
  | DURI x => Ok (uri_to_bytes x)
  | DCAA x => Ok (caa_to_bytes x)
  end.

(** mod.rs:327-377: nine variants compress, all others fall back to [to_bytes]. *)
Definition rdata_to_bytes_compressed (c : cfg) (h : hasher) (d : rdata) (m : names) (off : nat)
  : res (bytes * names) :=
  match d with
  | DNS x | DCNAME x | DPTR x => Ok (name_to_bytes_compressed h x m off)
  | DSOA x => Ok (soa_to_bytes_compressed h x m off)
  | DMINFO x => Ok (minfo_to_bytes_compressed h x m off)
  | DMX x => Ok (mx_to_bytes_compressed h x m off)
  | DSRV x => Ok (srv_to_bytes_compressed h x m off)
  | DNAPTR x => Ok (naptr_to_bytes_compressed h x m off)
  | DNSEC x => nsec_to_bytes_compressed c h x m off
  | _ => let! b := rdata_to_bytes c d in Ok (b, m)
  end.

(** byteconvertible.rs:16-18: [RecordData] uses the default [byte_size_compressed], the length of
    what [to_bytes_compressed] returns. *)
Definition rdata_byte_size_compressed (c : cfg) (h : hasher) (d : rdata) (m : names) (off : nat)
  : res (nat * names) :=
  let! r := rdata_to_bytes_compressed c h d m off in Ok (length (fst r), snd r).
