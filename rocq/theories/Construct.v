(** * The constructors of the record data structs, their conversions and the accessors of private fields. *)
From Verif Require Import Base Buffer Fqdn Header Types RDataBasic Bitmap Svcb RDataSec RData Packet.

(** ** [A] and [Aaaa]: the address is kept as its number; [Ipv4Addr::from(u32)], [u32::from(Ipv4Addr)],
    [Ipv6Addr::from(u128)] and [u128::from(Ipv6Addr)] are that number.
    a.rs:16-18, 20-22, 28-30, 61-65, 67-71, 73-77. *)
Definition a_new (addr : N) : N := addr.
Definition a_inner (x : N) : N := x.
Definition a_into_inner (x : N) : N := x.
Definition u32_from_a (x : N) : N := a_into_inner x.
Definition a_from_u32 (n : N) : N := a_new n.
Definition a_from_addr (addr : N) : N := a_new addr.
(** a.rs:24-26: the reference handed out is assigned [addr]. *)
Definition a_inner_mut (x addr : N) : N := addr.
(** aaaa.rs:18-20, 22-24, 30-32, 65-69, 71-75, 77-81. *)
Definition aaaa_new (addr : N) : N := addr.
Definition aaaa_inner (x : N) : N := x.
Definition aaaa_into_inner (x : N) : N := x.
Definition u128_from_aaaa (x : N) : N := aaaa_inner x.
Definition aaaa_from_u128 (n : N) : N := aaaa_new n.
Definition aaaa_from_addr (addr : N) : N := aaaa_new addr.
(** aaaa.rs:26-28. *)
Definition aaaa_inner_mut (x addr : N) : N := addr.
(** The conversions from texts (a.rs:79-85, aaaa.rs:83-89) are in AddrText.v. *)

(** ** Structs of one field.  ns.rs:26-28, cname.rs:26-28, ptr.rs:19-21, 23-25, 31-33, null.rs:19-21, txt.rs:14-16. *)
Definition ns_new (nsdname : fqdn) : fqdn := nsdname.
Definition cname_new (cname : fqdn) : fqdn := cname.
Definition ptr_new (ptr_dname : fqdn) : fqdn := ptr_dname.
Definition ptr_inner (x : fqdn) : fqdn := x.
Definition ptr_into_inner (x : fqdn) : fqdn := x.
(** ptr.rs:27-29. *)
Definition ptr_inner_mut (x f : fqdn) : fqdn := f.
Definition null_new (anything : bytes) : bytes := anything.
Definition txt_new (data : list bytes) : txt := data.

(** ** Structs of several fields: every argument is stored in the field of its name. *)
(** apl.rs:38-44. *)
Definition apl_new (prefix : N) (n : bool) (afd_part : afd) : apl :=
  {| apl_prefix := prefix; apl_n := n; apl_afd := afd_part |}.
(** caa.rs:28-34. *)
Definition caa_new (issuer_critical : bool) (tag value : bytes) : caa :=
  {| caa_critical := issuer_critical; caa_tag := tag; caa_value := value |}.
(** csync.rs:67-73. *)
Definition csync_new (soa_serial : N) (flags : csync_flags) (types : tset) : csync :=
  {| cs_serial := soa_serial; cs_flags := flags; cs_types := types |}.
(** hinfo.rs:20-22. *)
Definition hinfo_new (cpu os : bytes) : hinfo := {| hinfo_cpu := cpu; hinfo_os := os |}.
(** minfo.rs:34-36. *)
Definition minfo_new (rmailbx emailbx : fqdn) : minfo := {| minfo_r := rmailbx; minfo_e := emailbx |}.
(** mx.rs:26-31. *)
Definition mx_new (preference : N) (exchange : fqdn) : mx := {| mx_pref := preference; mx_exchange := exchange |}.
(** naptr.rs:73-89. *)
Definition naptr_new (order preference : N) (flags : list nflag) (service regexp : bytes) (replacement : fqdn) : naptr :=
  {| na_order := order; na_pref := preference; na_flags := flags; na_service := service; na_regexp := regexp; na_repl := replacement |}.
(** soa.rs:48-66. *)
Definition soa_new (mname rname : fqdn) (serial refresh retry expire minimum : N) : soa :=
  {| soa_mname := mname; soa_rname := rname; soa_serial := serial; soa_refresh := refresh; soa_retry := retry;
     soa_expire := expire; soa_minimum := minimum |}.
(** srv.rs:53-60. *)
Definition srv_new (priority weight port : N) (target : fqdn) : srv :=
  {| srv_prio := priority; srv_weight := weight; srv_port := port; srv_target := target |}.
(** sshfp.rs:19-29. *)
Definition sshfp_new (algorithm : alg) (fingerprint_type : fptype) (fingerprint : bytes) : sshfp :=
  {| ssh_alg := algorithm; ssh_type := fingerprint_type; ssh_fp := fingerprint |}.
(** tlsa.rs:42-54. *)
Definition tlsa_new (usage : cert_usage) (sel : selector) (matching_type : matching) (associated_data : bytes) : tlsa :=
  {| tlsa_usage := usage; tlsa_sel := sel; tlsa_match := matching_type; tlsa_data := associated_data |}.
(** uri.rs:43-49. *)
Definition uri_new (priority weight : N) (target : bytes) : uri :=
  {| uri_prio := priority; uri_weight := weight; uri_target := target |}.
(** wks.rs:39-45. *)
Definition wks_new (address protocol : N) (bitmap : bytes) : wks :=
  {| wks_addr := address; wks_proto := protocol; wks_bitmap := bitmap |}.

(** ** dnssec.rs (feature [dnssec]). *)
(** dnssec.rs:28-33 and 35-41. *)
Definition nsec_new (next_domain_name : fqdn) : nsec := {| ns_next := next_domain_name; ns_types := [] |}.
Definition nsec_with_types (next_domain_name : fqdn) (types : tset) : nsec := {| ns_next := next_domain_name; ns_types := types |}.
(** dnssec.rs:219-220: [zone_key] and [secure_entry_point] are public and may be assigned after [DnsKey::new]. *)
Definition dnskey_set_flags (k : dnskey) (zone_key secure_entry_point : bool) : dnskey :=
  {| dk_zone := zone_key; dk_sep := secure_entry_point; dk_protocol := dk_protocol k; dk_alg := dk_alg k; dk_pk := dk_pk k |}.
(** dnssec.rs:237-239. *)
Definition dnskey_protocol (k : dnskey) : N := dk_protocol k.
(** dnssec.rs:338-350. *)
Definition ds_new (key_tag : N) (algorithm : salg) (digest_type : digest_type) (digest : bytes) : ds :=
  {| ds_tag := key_tag; ds_alg := algorithm; ds_dt := digest_type; ds_digest := digest |}.
(** dnssec.rs:440-462. *)
Definition rrsig_new (type_covered : rtype) (algorithm : salg) (labels original_ttl sig_expiration sig_inception key_tag : N)
    (signers_name : fqdn) (signature : bytes) : rrsig :=
  {| rs_type := type_covered; rs_alg := algorithm; rs_labels := labels; rs_ttl := original_ttl; rs_exp := sig_expiration;
     rs_inc := sig_inception; rs_tag := key_tag; rs_signer := signers_name; rs_sig := signature |}.
(** dnssec.rs:497-499, 501-503. *)
Definition rrsig_key_tag (x : rrsig) : N := rs_tag x.
Definition rrsig_signature (x : rrsig) : bytes := rs_sig x.

(** ** resource_record_set.rs:31-45, 54-56, 58-60, 62-64, 66-68, 70-72. *)
Definition rrset_new (name : fqdn) (t : rtype) (k : rclass) (ttl : N) (records : list rdata) : rrset :=
  {| set_name := name; set_type := t; set_class := k; set_ttl := ttl; set_records := records |}.
