(** * The work of parsing.

    The parsers of Buffer.v to Packet.v once more, with a count of what they do: one step for each call of the buffer and
    each turn of the loop over labels, and one for each octet that is handed out.  Moving between buffers copies nothing
    (buffer.rs:20-29).  Not counted are conversions of what was handed out, which are in proportion to its length
    (and for ordered sets the logarithm of their size). *)
From Verif Require Import Base Utf8 Buffer Fqdn Header Types RDataBasic Bitmap Svcb RDataSec RData Packet.

Definition T (A : Type) : Type := buf -> res A * buf * N.
Definition tret {A} (a : A) : T A := fun b => (Ok a, b, 0).
Definition tfail {A} (e : dns_error) : T A := fun b => (Err e, b, 0).
Definition tlift {A} (r : res A) : T A := fun b => (r, b, 0).
Definition tbind {A B} (p : T A) (f : A -> T B) : T B := fun b =>
  match p b with
  | (Ok a, b', n) => let '(r, m) := f a b' in (r, n + m)
  | (Err e, b', n) => (Err e, b', n)
  | (Panic, b', n) => (Panic, b', n)
  | (Diverge, b', n) => (Diverge, b', n)
  end.
Notation "x <~ p ;; q" := (tbind p (fun x => q)) (at level 61, p at next level, right associativity).
(** A call of the buffer that hands out as many octets as [cost] says when it succeeds. *)
Definition tcall {A} (p : P A) (cost : nat) : T A := fun b =>
  (p b, match fst (p b) with Ok _ => 1 + N.of_nat cost | _ => 1 end).

(** buffer.rs:43-49, 52-59, 72-79. *)
Definition set_position_t (p : nat) : T unit := tcall (set_position p) 0.
Definition advance_t (len : nat) : T unit := tcall (advance len) 0.
Definition extract_bytes_t (len : nat) : T bytes := tcall (extract_bytes len) len.
(** buffer.rs:83-128. *)
Definition extract_u8_t : T N := bs <~ extract_bytes_t 1 ;; tret (unbe bs).
Definition extract_u16_t : T N := bs <~ extract_bytes_t 2 ;; tret (unbe bs).
Definition extract_u32_t : T N := bs <~ extract_bytes_t 4 ;; tret (unbe bs).
Definition extract_u16_as_t {A} (f : N -> res A) : T A := n <~ extract_u16_t ;; tlift (f n).
Definition extract_u8_as_t {A} (f : N -> res A) : T A := n <~ extract_u8_t ;; tlift (f n).
Definition extract_character_string_t : T bytes := n <~ extract_u8_t ;; extract_bytes_t (N.to_nat n).
Definition extract_string_t : T bytes := s <~ extract_character_string_t ;; if utf8_valid s then tret s else tfail LengthViolation.
(** buffer.rs:134-175: the turns of the loop and the octets of the labels. *)
Fixpoint fqdn_steps (d : bytes) (fuel : nat) (org : option nat) (p : nat) : N :=
  match fuel with
  | O => 0
  | S f =>
    match nth_error d p with
    | None => 1
    | Some len =>
      if N.land len COMPRESSION_MASK =? COMPRESSION_MASK then
        let org' := match org with None => Some (p + 1)%nat | Some o => Some o end in
        match peek_bytes 2 (mkbuf d p) with
        | (Ok bs, _) =>
          let t := N.to_nat (N.land (unbe bs) (65535 - COMPRESSION_MASK_U16)) in
          let o := match org' with Some o => o | None => O end in
          if (o <=? t)%nat then 3 else 3 + fqdn_steps d f org' t
        | _ => 1
        end
      else if (length d <? p + N.to_nat len)%nat then 1
      else if len =? 0 then 1
      else if (length d <? p + 1 + N.to_nat len)%nat then 1
      else 1 + len + fqdn_steps d f org (p + 1 + N.to_nat len)
    end
  end.
Definition extract_fqdn_t : T (list bytes) := fun b => (extract_fqdn b, fqdn_steps (data b) (fqdn_fuel (data b)) None (pos b)).
(** The loops of Buffer.v. *)
Fixpoint while_remaining_t {A} (fuel : nat) (step : A -> T A) (acc : A) : T A := fun b =>
  if (remaining b =? 0)%nat then (Ok acc, b, 0)
  else match fuel with
       | O => (Diverge, b, 0)
       | S f => (a <~ step acc ;; while_remaining_t f step a) b
       end.
Definition loop_remaining_t {A} (step : A -> T A) (acc : A) : T A := fun b => while_remaining_t (remaining b) step acc b.
Definition extract_rest_t : T bytes := fun b => extract_bytes_t (remaining b) b.
Fixpoint repeat_t {A} (n : nat) (p : T A) : T (list A) :=
  match n with
  | O => tret []
  | S n' => x <~ p ;; xs <~ repeat_t n' p ;; tret (x :: xs)
  end.

(** ** Header.v *)
(** header.rs:202-215. *)
Definition header_try_from_t : T header :=
  i <~ extract_u16_t ;;
  fb <~ extract_bytes_t 2 ;;
  q <~ extract_u16_t ;;
  a <~ extract_u16_t ;;
  n <~ extract_u16_t ;;
  d <~ extract_u16_t ;;
  tret (mkheader i (flags_from_bytes fb) q a n d).
(** ** RDataBasic.v *)
(** a.rs:36-38. *)
Definition a_try_from_t : T N := extract_u32_t.
(** aaaa.rs:38-42. *)
Definition aaaa_try_from_t : T N := bs <~ extract_bytes_t 16 ;; tret (unbe bs).
(** apl.rs:50-81. *)
Definition apl_try_from_t : T apl :=
  family <~ extract_u16_t ;;
  prefix <~ extract_u8_t ;;
  coded <~ extract_u8_t ;;
  let n := negb (N.land coded 128 =? 0) in
  bs <~ extract_bytes_t (N.to_nat (N.land coded 126)) ;;
  match family with
  | 1 => tret (mkApl prefix n (AfdV4 (unbe (resize 4 bs))))
  | 2 => tret (mkApl prefix n (AfdV6 (unbe (resize 16 bs))))
  | _ => tfail (InvalidAplFamily family)
  end.
(** caa.rs:40-56. *)
Definition caa_try_from_t : T caa :=
  flags <~ extract_u8_t ;;
  tag_len <~ extract_u8_t ;;
  if tag_len =? 0 then tfail InvalidPacketData
  else
    tag <~ extract_bytes_t (N.to_nat tag_len) ;;
    value <~ extract_rest_t ;;
    tret (mkCaa (negb (N.land flags 128 =? 0)) (utf8_lossy tag) value).
(** cname.rs:34-38, ns.rs:34-38, ptr.rs:39-41. *)
Definition name_try_from_t : T fqdn := extract_fqdn_t.
(** dhcid.rs:65-77. *)
Definition dhcid_try_from_t : T dhcid :=
  i <~ extract_u16_as_t idtype_try_from ;;
  d <~ extract_u8_t ;;
  if negb (d =? 1) then tfail (InvalidDigestType d)
  else dig <~ extract_rest_t ;; tret (mkDhcid i dig).
(** eui48.rs:16-18. *)
Definition eui48_try_from_t : T bytes := extract_bytes_t 6.
(** eui64.rs:16-18. *)
Definition eui64_try_from_t : T bytes := extract_bytes_t 8.
(** hinfo.rs:28-33. *)
Definition hinfo_try_from_t : T hinfo :=
  c <~ extract_character_string_t ;; o <~ extract_character_string_t ;; tret (mkHinfo c o).
(** hip.rs:39-62. *)
Definition names_step_t (acc : list fqdn) : T (list fqdn) := f <~ extract_fqdn_t ;; tret (acc ++ [f]).
(** hip.rs:39-62. *)
Definition hip_try_from_t : T hip :=
  hit_len <~ extract_u8_t ;;
  a <~ extract_u8_as_t alg_try_from ;;
  pk_len <~ extract_u16_t ;;
  hit <~ extract_bytes_t (N.to_nat hit_len) ;;
  pk <~ extract_bytes_t (N.to_nat pk_len) ;;
  fun b =>
    if (remaining b =? 0)%nat then (Ok (mkHip a hit pk None), b, 0)
    else (ns <~ loop_remaining_t names_step_t [] ;; tret (mkHip a hit pk (Some ns))) b.
(** ipseckey.rs:35-60. *)
Definition ipseckey_try_from_t : T ipseckey :=
  prec <~ extract_u8_t ;;
  gt <~ extract_u8_t ;;
  a <~ extract_u8_as_t alg_try_from ;;
  gw <~ match gt with
        | 0 => _ <~ extract_u8_t ;; tret GwNone
        | 1 => x <~ extract_u32_t ;; tret (GwV4 x)
        | 2 => x <~ extract_bytes_t 16 ;; tret (GwV6 (unbe x))
        | 3 => f <~ extract_fqdn_t ;; tret (GwDomain f)
        | _ => tfail (InvalidIpSecKeyGatewayType gt)
        end ;;
  pk <~ extract_rest_t ;;
  tret (mkIpsec prec a gw pk).
(** loc.rs:89-99. *)
Definition loc_try_from_t : T loc :=
  v <~ extract_u8_t ;; s <~ extract_u8_t ;; h <~ extract_u8_t ;; p <~ extract_u8_t ;;
  la <~ extract_u32_t ;; lo <~ extract_u32_t ;; al <~ extract_u32_t ;;
  tret (mkLoc v s h p la lo al).
(** minfo.rs:42-47. *)
Definition minfo_try_from_t : T minfo := r <~ extract_fqdn_t ;; e <~ extract_fqdn_t ;; tret (mkMinfo r e).
(** mx.rs:37-42. *)
Definition mx_try_from_t : T mx := p <~ extract_u16_t ;; f <~ extract_fqdn_t ;; tret (mkMx p f).
(** naptr.rs:95-108. *)
Definition naptr_try_from_t : T naptr :=
  o <~ extract_u16_t ;;
  p <~ extract_u16_t ;;
  fl <~ extract_character_string_t ;;
  s <~ extract_character_string_t ;;
  r <~ extract_string_t ;;
  f <~ extract_fqdn_t ;;
  tret (mkNaptr o p (nflags_of fl) s r f).
(** null.rs:27-31, openpgpkey.rs:21-23. *)
Definition opaque_try_from_t : T bytes := extract_rest_t.
(** opt.rs:32-41. *)
Definition opt_step_t (m : opt) : T opt :=
  code <~ extract_u16_t ;;
  len <~ extract_u16_t ;;
  d <~ extract_bytes_t (N.to_nat len) ;;
  tret (opt_insert code d m).
(** opt.rs:32-41. *)
Definition opt_try_from_t : T opt := loop_remaining_t opt_step_t [].
(** soa.rs:72-82. *)
Definition soa_try_from_t : T soa :=
  m <~ extract_fqdn_t ;; r <~ extract_fqdn_t ;;
  a <~ extract_u32_t ;; b <~ extract_u32_t ;; c <~ extract_u32_t ;; d <~ extract_u32_t ;; e <~ extract_u32_t ;;
  tret (mkSoa m r a b c d e).
(** srv.rs:66-73. *)
Definition srv_try_from_t : T srv :=
  p <~ extract_u16_t ;; w <~ extract_u16_t ;; q <~ extract_u16_t ;; f <~ extract_fqdn_t ;;
  tret (mkSrv p w q f).
(** sshfp.rs:35-41. *)
Definition sshfp_try_from_t : T sshfp :=
  a <~ extract_u8_as_t alg_try_from ;;
  t <~ extract_u8_as_t fptype_try_from ;;
  f <~ extract_character_string_t ;;
  tret (mkSshfp a t f).
(** tlsa.rs:60-67. *)
Definition tlsa_try_from_t : T tlsa :=
  u <~ extract_u8_as_t cert_usage_try_from ;;
  s <~ extract_u8_as_t selector_try_from ;;
  m <~ extract_u8_as_t matching_try_from ;;
  d <~ extract_rest_t ;;
  tret (mkTlsa u s m d).
(** tkey.rs:47-67. *)
Definition tkey_try_from_t : T tkey :=
  a <~ extract_fqdn_t ;;
  i <~ extract_u32_t ;;
  e <~ extract_u32_t ;;
  m <~ extract_u16_as_t tkmode_try_from ;;
  r <~ extract_u16_as_t tkerr_try_from ;;
  ks <~ extract_u16_t ;;
  k <~ extract_bytes_t (N.to_nat ks) ;;
  os <~ extract_u16_t ;;
  o <~ extract_bytes_t (N.to_nat os) ;;
  tret (mkTkey a i e m r k o).
(** tsig.rs:64-85. *)
Definition tsig_try_from_t : T tsig :=
  a <~ extract_fqdn_t ;;
  t <~ extract_bytes_t 6 ;;
  f <~ extract_u16_t ;;
  ml <~ extract_u16_t ;;
  m <~ extract_bytes_t (N.to_nat ml) ;;
  i <~ extract_u16_t ;;
  e <~ extract_u16_as_t tserr_try_from ;;
  ol <~ extract_u16_t ;;
  o <~ extract_bytes_t (N.to_nat ol) ;;
  tret (mkTsig a (unbe ([0; 0] ++ t)) f m i e o).
(** txt.rs:22-31. *)
Definition txt_step_t (acc : txt) : T txt :=
  n <~ extract_u8_t ;; s <~ extract_bytes_t (N.to_nat n) ;; tret (acc ++ [utf8_lossy s]).
(** txt.rs:22-31. *)
Definition txt_try_from_t : T txt := loop_remaining_t txt_step_t [].
(** uri.rs:55-61. *)
Definition uri_try_from_t : T uri :=
  p <~ extract_u16_t ;; w <~ extract_u16_t ;; t <~ extract_rest_t ;; tret (mkUri p w t).
(** wks.rs:51-57. *)
Definition wks_try_from_t : T wks :=
  a <~ extract_u32_t ;; p <~ extract_u8_t ;; b <~ extract_rest_t ;; tret (mkWks a p b).
(** ** Bitmap.v *)
(** csync.rs:86-99. *)
Definition window_step_t (c : cfg) (acc : tset) : T tset :=
  w <~ extract_u8_t ;;
  n <~ extract_u8_t ;;
  bm <~ extract_bytes_t (N.to_nat n) ;;
  tlift (bitmap_types c w 0 bm acc).
(** csync.rs:84-100. *)
Definition types_try_from_t (c : cfg) : T tset := loop_remaining_t (window_step_t c) [].
(** csync.rs:79-107. *)
Definition csync_try_from_t (c : cfg) : T csync :=
  s <~ extract_u32_t ;;
  f <~ extract_u16_as_t csync_flags_try_from ;;
  ts <~ types_try_from_t c ;;
  tret (mkCsync s f ts).
(** ** Svcb.v *)
(** svcb.rs:205-211. *)
Fixpoint mandatory_loop_t (c : cfg) (fuel : nat) (len : N) (acc : list pkey) : T (list pkey) := fun b =>
  if len =? 0 then (Ok acc, b, 0)
  else match fuel with
       | O => (Diverge, b, 0)
       | S f => (k <~ extract_u16_as_t pkey_try_from ;;
                 len' <~ tlift (usub c M64 len 2) ;;
                 mandatory_loop_t c f len' (set_insert pkey_code k acc)) b
       end.
(** svcb.rs:213-219. *)
Fixpoint alpn_loop_t (c : cfg) (fuel : nat) (len : N) (acc : list bytes) : T (list bytes) := fun b =>
  if len =? 0 then (Ok acc, b, 0)
  else match fuel with
       | O => (Diverge, b, 0)
       | S f => (n <~ extract_u8_t ;;
                 s <~ extract_bytes_t (N.to_nat n) ;;
                 len' <~ tlift (usub c M64 len (n + 1)) ;;
                 alpn_loop_t c f len' (acc ++ [s])) b
       end.
(** svcb.rs:200-235. *)
Definition param_try_from_t (c : cfg) : T param :=
  key <~ extract_u16_as_t pkey_try_from ;;
  len <~ extract_u16_t ;;
  match key with
  | KMandatory => fun b => (ks <~ mandatory_loop_t c (S (remaining b)) len [] ;; tret (PMandatory ks)) b
  | KAlpn => fun b => (l <~ alpn_loop_t c (S (remaining b)) len [] ;; tret (PAlpn l)) b
  | KNoDefaultAlpn => tret PNoDefaultAlpn
  | KPort => n <~ extract_u16_t ;; tret (PPort n)
  | KIpV4Hint => a <~ extract_u32_t ;; tret (PIpV4Hint a)
  | KEch => bs <~ extract_bytes_t (N.to_nat len) ;; tret (PEch bs)
  | KIpV6Hint => bs <~ extract_bytes_t 16 ;; tret (PIpV6Hint (unbe bs))
  | KPrivate n => bs <~ extract_bytes_t (N.to_nat len) ;; tret (PPrivate n bs)
  | KInvalid => tret PInvalid
  end.
(** svcb.rs:57-62. *)
Definition param_step_t (c : cfg) (acc : list param) : T (list param) := fun b =>
  match sub_buffer b (remaining b) with
  | Ok sb =>
    match param_try_from_t c sb with
    | (Ok p, sb', n) => let '(r, m) := (_ <~ set_position_t (pos sb') ;; tret (set_insert param_code p acc)) b in (r, 1 + n + m)
    | (Err e, _, n) => (Err e, b, 1 + n)
    | (Panic, _, n) => (Panic, b, 1 + n)
    | (Diverge, _, n) => (Diverge, b, 1 + n)
    end
  | Err e => (Err e, b, 1)
  | Panic => (Panic, b, 1)
  | Diverge => (Diverge, b, 1)
  end.
(** svcb.rs:51-70. *)
Definition svcb_try_from_t (c : cfg) : T svcb :=
  p <~ extract_u16_t ;;
  f <~ extract_fqdn_t ;;
  ps <~ loop_remaining_t (param_step_t c) [] ;;
  tret (mkSvcb p f ps).
(** ** RDataSec.v *)
(** dnssec.rs:57-83. *)
Definition nsec_try_from_t (c : cfg) : T nsec :=
  f <~ extract_fqdn_t ;; ts <~ types_try_from_t c ;; tret (mkNsec f ts).
(** dnssec.rs:277-290. *)
Definition dnskey_try_from_t : T dnskey :=
  f <~ extract_u16_t ;;
  p <~ extract_u8_t ;;
  a <~ extract_u8_as_t salg_try_from ;;
  k <~ extract_rest_t ;;
  tret (mkDnskey (negb (N.land f 256 =? 0)) (negb (N.land f 1 =? 0)) p a k).
(** dnssec.rs:384-391. *)
Definition ds_try_from_t : T ds :=
  t <~ extract_u16_t ;;
  a <~ extract_u8_as_t salg_try_from ;;
  d <~ extract_u8_as_t digest_type_try_from ;;
  g <~ extract_rest_t ;;
  tret (mkDs t a d g).
(** dnssec.rs:682-694. *)
Definition rrsig_try_from_t (c : cfg) : T rrsig :=
  t <~ extract_u16_as_t (rtype_try_from c) ;;
  a <~ extract_u8_as_t salg_try_from ;;
  l <~ extract_u8_t ;;
  o <~ extract_u32_t ;;
  e <~ extract_u32_t ;;
  i <~ extract_u32_t ;;
  k <~ extract_u16_t ;;
  f <~ extract_fqdn_t ;;
  s <~ extract_rest_t ;;
  tret (mkRrsig t a l o e i k f s).
(** ** RData.v *)
(** The constructor around the data, mod.rs:179-225. *)
Definition pmap_t {A B} (f : A -> B) (p : T A) : T B := a <~ p ;; tret (f a).
(** mod.rs:179-225. *)
Definition rdata_from_t (c : cfg) (t : rtype) : T rdata :=
  match t with
  | A => pmap_t DA a_try_from_t
  | NS => pmap_t DNS name_try_from_t
  | CNAME => pmap_t DCNAME name_try_from_t
  | SOA => pmap_t DSOA soa_try_from_t
  | NULL => pmap_t DNULL opaque_try_from_t
  | WKS => pmap_t DWKS wks_try_from_t
  | PTR => pmap_t DPTR name_try_from_t
  | HINFO => pmap_t DHINFO hinfo_try_from_t
  | MINFO => pmap_t DMINFO minfo_try_from_t
  | MX => pmap_t DMX mx_try_from_t
  | TXT => pmap_t DTXT txt_try_from_t
  | AAAA => pmap_t DAAAA aaaa_try_from_t
  | LOC => pmap_t DLOC loc_try_from_t
  | SRV => pmap_t DSRV srv_try_from_t
  | NAPTR => pmap_t DNAPTR naptr_try_from_t
  | OPT => pmap_t DOPT opt_try_from_t
  | APL => pmap_t DAPL apl_try_from_t
  | DS => pmap_t DDS ds_try_from_t
  | SSHFP => pmap_t DSSHFP sshfp_try_from_t
  | IPSECKEY => pmap_t DIPSECKEY ipseckey_try_from_t
  | RRSIG => pmap_t DRRSIG (rrsig_try_from_t c)
  | NSEC => pmap_t DNSEC (nsec_try_from_t c)
  | DNSKEY => pmap_t DDNSKEY dnskey_try_from_t
  | DHCID => pmap_t DDHCID dhcid_try_from_t
  | TLSA => pmap_t DTLSA tlsa_try_from_t
  | HIP => pmap_t DHIP hip_try_from_t
  | CDS => pmap_t DCDS ds_try_from_t
  | CDNSKEY => pmap_t DCDNSKEY dnskey_try_from_t
  | OPENPGPKEY => pmap_t DOPENPGPKEY opaque_try_from_t
  | CSYNC => pmap_t DCSYNC (csync_try_from_t c)
  | SVCB => pmap_t DSVCB (svcb_try_from_t c)
  | EUI48 => pmap_t DEUI48 eui48_try_from_t
  | EUI64 => pmap_t DEUI64 eui64_try_from_t
  | TKEY => pmap_t DTKEY tkey_try_from_t
  | TSIG => pmap_t DTSIG tsig_try_from_t
  | URI => pmap_t DURI uri_try_from_t
  | CAA => pmap_t DCAA caa_try_from_t
  end.
(** ** Packet.v *)
(** question.rs:310-335. *)
Definition question_try_from_t (c : cfg) : T question :=
  f <~ extract_fqdn_t ;;
  t <~ extract_u16_as_t (qtype_try_from c) ;;
  if mdns c then
    v <~ extract_u16_t ;;
    if negb (N.land v TOP_BIT =? 0) then
      k <~ tlift (qclass_try_from (N.land v 32767)) ;; tret (mkQ f t k true)
    else
      k <~ tlift (qclass_try_from v) ;; tret (mkQ f t k false)
  else
    k <~ extract_u16_as_t qclass_try_from ;; tret (mkQ f t k false).
(** resource.rs:400-403. *)
Definition framed_t {A} (len : nat) (p : T A) : T A := fun b =>
  match sub_buffer b len with
  | Ok sb =>
    match p sb with
    | (Ok a, _, n) => let '(r, m) := (_ <~ advance_t len ;; tret a) b in (r, 1 + n + m)
    | (Err e, _, n) => (Err e, b, 1 + n)
    | (Panic, _, n) => (Panic, b, 1 + n)
    | (Diverge, _, n) => (Diverge, b, 1 + n)
    end
  | Err e => (Err e, b, 1)
  | Panic => (Panic, b, 1)
  | Diverge => (Diverge, b, 1)
  end.
(** resource.rs:377-414. *)
Definition rr_try_from_t (c : cfg) : T rr :=
  f <~ extract_fqdn_t ;;
  t <~ extract_u16_as_t (rtype_try_from c) ;;
  v <~ extract_u16_t ;;
  ttlb <~ extract_bytes_t 4 ;;
  len <~ extract_u16_t ;;
  d <~ framed_t (N.to_nat len) (rdata_from_t c t) ;;
  let k := rr_class_field_parse c v in
  tret (mkRR f t (snd k) (fst k) (unbe ttlb) d).
(** packet.rs:345-380. *)
Definition packet_try_from_buf_t (c : cfg) : T packet :=
  h <~ header_try_from_t ;;
  qs <~ repeat_t (N.to_nat (ques_count h)) (question_try_from_t c) ;;
  an <~ repeat_t (N.to_nat (ans_count h)) (rr_try_from_t c) ;;
  au <~ repeat_t (N.to_nat (auth_count h)) (rr_try_from_t c) ;;
  ad <~ repeat_t (N.to_nat (add_count h)) (rr_try_from_t c) ;;
  tret (mkPacket h qs an au ad).
(** packet.rs:332-340: the work for a message. *)
Definition packet_steps (c : cfg) (d : bytes) : N := snd (packet_try_from_buf_t c (buf_from d)).
