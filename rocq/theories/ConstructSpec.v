(** * Specification: what a call of a constructor means on the wire.

    One [call] for every public constructor of a record data struct, with its arguments under the names
    and in the order of the documentation; the fields are those of the RFC that defines the type. *)
From Verif Require Import Base Header Types RDataBasic Bitmap Svcb RDataSec RData Packet CodeSpec RDataSpec FieldSpec LayoutSpec Api Construct.

Inductive call :=
| NewA (addr : N) | FromU32 (n : N) | NewAaaa (addr : N) | FromU128 (n : N)
| NewNs (nsdname : list bytes) | NewCname (cname : list bytes) | NewPtr (dname : list bytes)
| NewNull (anything : bytes) | NewTxt (data : list bytes)
| NewApl (prefix : N) (n : bool) (afd_part : afd)
| NewCaa (issuer_critical : bool) (tag value : bytes)
| NewCsync (soa_serial : N) (immediate soa_minimum : bool) (types : list rtype)
| NewHinfo (cpu os : bytes)
| NewMinfo (rmailbx emailbx : list bytes)
| NewMx (preference : N) (exchange : list bytes)
| NewNaptr (order preference : N) (flags : list nflag) (service regexp : bytes) (replacement : list bytes)
| NewSoa (mname rname : list bytes) (serial refresh retry expire minimum : N)
| NewSrv (priority weight port : N) (target : list bytes)
| NewSshfp (algorithm : alg) (fingerprint_type : fptype) (fingerprint : bytes)
| NewTlsa (usage : cert_usage) (sel : selector) (matching_type : matching) (associated_data : bytes)
| NewUri (priority weight : N) (target : bytes)
| NewWks (address protocol : N) (bitmap : bytes)
| NewNsec (next : list bytes) (types : list rtype)
| NewDnskey (algorithm : salg) (public_key : bytes) (zone_key secure_entry_point : bool)
| NewDs (key_tag : N) (algorithm : salg) (dt : digest_type) (digest : bytes)
| NewRrsig (type_covered : rtype) (algorithm : salg) (labels original_ttl expiration inception key_tag : N)
           (signer : list bytes) (signature : bytes).

(** The struct that the call returns; CSYNC flags are made by [Flags::new] and its two setters. *)
Definition made (k : call) : payload :=
  match k with
  | NewA x => SA (a_new x) | FromU32 n => SA (a_from_u32 n) | NewAaaa x => SAaaa (aaaa_new x) | FromU128 n => SAaaa (aaaa_from_u128 n)
  | NewNs f => SNs (ns_new f) | NewCname f => SCname (cname_new f) | NewPtr f => SPtr (ptr_new f)
  | NewNull b => SNull (null_new b) | NewTxt l => STxt (txt_new l)
  | NewApl p n a => SApl (apl_new p n a)
  | NewCaa c t v => SCaa (caa_new c t v)
  | NewCsync s i m ts => SCsync (csync_new s (csync_set_soa_minimum (csync_set_immediate csync_flags_new i) m) ts)
  | NewHinfo c o => SHinfo (hinfo_new c o)
  | NewMinfo r e => SMinfo (minfo_new r e)
  | NewMx p f => SMx (mx_new p f)
  | NewNaptr o p fl s r f => SNaptr (naptr_new o p fl s r f)
  | NewSoa m r s rf rt ex mi => SSoa (soa_new m r s rf rt ex mi)
  | NewSrv p w q f => SSrv (srv_new p w q f)
  | NewSshfp a t f => SSshfp (sshfp_new a t f)
  | NewTlsa u s m d => STlsa (tlsa_new u s m d)
  | NewUri p w t => SUri (uri_new p w t)
  | NewWks a p b => SWks (wks_new a p b)
  | NewNsec f ts => SNsec (nsec_with_types f ts)
  | NewDnskey a pk z s => SDnsKey (dnskey_set_flags (dnskey_new a pk) z s)
  | NewDs t a d b => SDs (ds_new t a d b)
  | NewRrsig t a l ttl ex inc tag f s => SRrsig (rrsig_new t a l ttl ex inc tag f s)
  end.

(** The record data, as the RFCs (see [rfc_fields]) draw it, in terms of the arguments. *)
Definition asked (k : call) : list field :=
  match k with
  | NewA x | FromU32 x => [Number 4 x]
  | NewAaaa x | FromU128 x => [Number 16 x]
  | NewNs f | NewCname f | NewPtr f => [DomainName f]
  | NewNull b => [Octets b]
  | NewTxt l => map CharString l
  | NewApl prefix n a => [Number 2 (afd_fam a); Number 1 prefix; AddressPart n (afd_width a) (afd_number a)]
  | NewCaa critical tag value => [Number 1 (flag critical 128); CharString tag; Octets value]
  | NewCsync serial immediate minimum ts => [Number 4 serial; Number 2 (flag minimum 2 + flag immediate 1); TypeBitMaps ts]
  | NewHinfo cpu os => [CharString cpu; CharString os]
  | NewMinfo rmailbx emailbx => [DomainName rmailbx; DomainName emailbx]
  | NewMx preference exchange => [Number 2 preference; DomainName exchange]
  | NewNaptr order preference flags service regexp replacement =>
      [Number 2 order; Number 2 preference; Prefixed 1 (map (fun f => Registered 1 (number_in iana_nflag f)) flags);
       CharString service; CharString regexp; DomainName replacement]
  | NewSoa mname rname serial refresh retry expire minimum =>
      [DomainName mname; DomainName rname; Number 4 serial; Number 4 refresh; Number 4 retry; Number 4 expire; Number 4 minimum]
  | NewSrv priority weight port target => [Number 2 priority; Number 2 weight; Number 2 port; DomainName target]
  | NewSshfp a t fingerprint => [Registered 1 (number_in iana_sshfp_alg a); Registered 1 (number_in iana_fptype t); Octets fingerprint]
  | NewTlsa usage sel m data => [Registered 1 (number_in iana_cert_usage usage); Registered 1 (number_in iana_selector sel);
                                 Registered 1 (number_in iana_matching m); Octets data]
  | NewUri priority weight target => [Number 2 priority; Number 2 weight; Octets target]
  | NewWks address protocol bitmap => [Number 4 address; Number 1 protocol; Octets bitmap]
  | NewNsec next ts => [DomainName next; TypeBitMaps ts]
  | NewDnskey a pk zone sep => [Number 2 (flag zone 256 + flag sep 1); Number 1 3; Registered 1 (number_in iana_salg a); Octets pk]
  | NewDs tag a dt digest => [Number 2 tag; Registered 1 (number_in iana_salg a); Registered 1 (number_in iana_digest_type dt); Octets digest]
  | NewRrsig t a labels ttl expiration inception tag signer signature =>
      [Registered 2 (number_in iana_types t); Registered 1 (number_in iana_salg a); Number 1 labels; Number 4 ttl; Number 4 expiration;
       Number 4 inception; Number 2 tag; DomainName signer; Octets signature]
  end.

(** What the Rust types of the arguments guarantee; the DNSSEC structs exist with the feature only. *)
Definition args_typed (c : cfg) (k : call) : Prop :=
  match k with
  | NewA x | FromU32 x => U32 x
  | NewAaaa x | FromU128 x => U128 x
  | NewNs _ | NewCname _ | NewPtr _ | NewNull _ | NewHinfo _ _ | NewMinfo _ _ | NewSshfp _ _ _ | NewTlsa _ _ _ _ => True
  | NewTxt l => Forall text l
  | NewApl prefix _ a => U8 prefix /\ afd_typed a
  | NewCaa _ tag _ => text tag
  | NewCsync serial _ _ ts => U32 serial /\ tset_typed c ts
  | NewMx preference _ => U16 preference
  | NewNaptr order preference _ _ regexp _ => U16 order /\ U16 preference /\ text regexp
  | NewSoa _ _ serial refresh retry expire minimum => U32 serial /\ U32 refresh /\ U32 retry /\ U32 expire /\ U32 minimum
  | NewSrv priority weight port _ => U16 priority /\ U16 weight /\ U16 port
  | NewUri priority weight _ => U16 priority /\ U16 weight
  | NewWks address protocol _ => U32 address /\ U8 protocol
  | NewNsec _ ts => dnssec c = true /\ tset_typed c ts
  | NewDnskey _ _ _ _ => dnssec c = true
  | NewDs tag _ _ _ => dnssec c = true /\ U16 tag
  | NewRrsig t _ labels ttl expiration inception tag _ _ =>
      dnssec c = true /\ rtype_exists c t = true /\ U8 labels /\ U32 ttl /\ U32 expiration /\ U32 inception /\ U16 tag
  end.
(** What such fields can hold: labels of 1 to 63 octets, character strings of at most 255; and the exceptions of C41, C50 and C51. *)
Definition args_fit (k : call) : Prop :=
  match k with
  | NewNs f | NewCname f | NewPtr f | NewMx _ f | NewSrv _ _ _ f | NewRrsig _ _ _ _ _ _ _ f _ => legal_name f
  | NewMinfo f g | NewSoa f g _ _ _ _ _ => legal_name f /\ legal_name g
  | NewTxt l => Forall (fun s : bytes => (length s <= 255)%nat) l
  | NewApl _ _ a => afd_number a mod 256 <> 0
  | NewCaa _ tag _ => (length tag <= 255)%nat
  | NewCsync _ _ _ ts => exists t n, In t ts /\ In (t, n) iana_types /\ n < 256
  | NewHinfo cpu os => (length cpu <= 255)%nat /\ (length os <= 255)%nat
  | NewNaptr _ _ flags service regexp f => (length flags <= 255)%nat /\ (length service <= 255)%nat /\ (length regexp <= 255)%nat /\ legal_name f
  | NewNsec f ts => legal_name f /\ exists t n, In t ts /\ In (t, n) iana_types /\ n < 256
  | NewSshfp a _ _ => a <> AlgEd448
  | NewDs _ _ dt _ => dt <> DtSHA512
  | _ => True
  end.
