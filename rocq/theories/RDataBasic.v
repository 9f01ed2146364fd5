(** * Model of src/rdata/*.rs except the type bitmaps, SVCB and dnssec.rs.

    For each record data type: the value type, [TryFrom<&mut DnsBuffer>], [byte_size], [to_bytes]
    and, where the code has it, [to_bytes_compressed] / [byte_size_compressed].
    Integer fields are [N]; IPv4/IPv6 addresses are the [N] their octets denote. *)
From Verif Require Import Base Utf8 Buffer Fqdn.

(** [Vec<u8>] preceded by its length in one byte ([push(len as u8); extend]). *)
Definition char_string (s : bytes) : bytes := len8 (length s) :: s.

(** ** rdata/mod.rs:90-126, [Algorithm] (SSHFP, IPSECKEY, HIP). *)
Inductive alg : Set := AlgReserved | AlgRSA | AlgDSA | AlgECDSA | AlgEd25519 | AlgEd448.
Definition alg_code (a : alg) : N :=
  match a with AlgReserved => 0 | AlgRSA => 1 | AlgDSA => 2 | AlgECDSA => 3 | AlgEd25519 => 4
             | AlgEd448 => 5 end.
Definition alg_try_from (n : N) : res alg :=
  ok_or (assoc n [(0, AlgReserved); (1, AlgRSA); (2, AlgDSA); (3, AlgECDSA); (4, AlgEd25519);
                  (5, AlgEd448)])
        (InvalidSSHFPAlgorithm n).

(** ** a.rs: [A(Ipv4Addr)]: 36-38, 52-54, 56-58. *)
Definition a_try_from : P N := extract_u32.
Definition a_byte_size (a : N) : nat := 4.
Definition a_to_bytes (a : N) : bytes := be 4 a.

(** ** aaaa.rs: 38-42, 56-58, 60-62. *)
Definition aaaa_try_from : P N := bs <- extract_bytes 16 ;; ret (unbe bs).
Definition aaaa_byte_size (a : N) : nat := 16.
Definition aaaa_to_bytes (a : N) : bytes := be 16 a.

(** ** apl.rs: 20-35, 110-140. *)
Inductive afd := AfdV4 (a : N) | AfdV6 (a : N).
Record apl := mkApl { apl_prefix : N; apl_n : bool; apl_afd : afd }.
(** [Vec::resize(k, 0)]. *)
Definition resize (k : nat) (l : bytes) : bytes := firstn k (l ++ repeat 0 k).
(** apl.rs:50-81. *)
Definition apl_try_from : P apl :=
  family <- extract_u16 ;;
  prefix <- extract_u8 ;;
  coded <- extract_u8 ;;
  let n := negb (N.land coded 128 =? 0) in
  bs <- extract_bytes (N.to_nat (N.land coded 126)) ;;
  match family with
  | 1 => ret (mkApl prefix n (AfdV4 (unbe (resize 4 bs))))
  | 2 => ret (mkApl prefix n (AfdV6 (unbe (resize 16 bs))))
  | _ => fail (InvalidAplFamily family)
  end.
(** apl.rs:115-122, 124-139. *)
Definition afd_family (a : afd) : N := match a with AfdV4 _ => 1 | AfdV6 _ => 2 end.
Definition afd_byte_size (a : afd) : nat := match a with AfdV4 _ => 4 | AfdV6 _ => 16 end.
Definition afd_to_bytes (a : afd) : bytes := match a with AfdV4 x => be 4 x | AfdV6 x => be 16 x end.
(** apl.rs:95-97, 99-106. *)
Definition apl_byte_size (a : apl) : nat := 4 + afd_byte_size (apl_afd a).
Definition apl_to_bytes (a : apl) : bytes :=
  be 2 (afd_family (apl_afd a)) ++ [apl_prefix a]
  ++ [N.lor (if apl_n a then 128 else 0) (len8 (afd_byte_size (apl_afd a)))]
  ++ afd_to_bytes (apl_afd a).

(** ** caa.rs: 12-25, 40-56, 70-72, 74-81. *)
Record caa := mkCaa { caa_critical : bool; caa_tag : bytes; caa_value : bytes }.
Definition caa_try_from : P caa :=
  flags <- extract_u8 ;;
  tag_len <- extract_u8 ;;
  if tag_len =? 0 then fail InvalidPacketData
  else
    tag <- extract_bytes (N.to_nat tag_len) ;;
    value <- extract_rest ;;
    ret (mkCaa (negb (N.land flags 128 =? 0)) (utf8_lossy tag) value).
Definition caa_byte_size (x : caa) : nat := 2 + length (caa_value x).
Definition caa_to_bytes (x : caa) : bytes :=
  [if caa_critical x then 128 else 0] ++ [len8 (length (caa_tag x))] ++ caa_tag x ++ caa_value x.

(** ** cname.rs:34-38, 52-58, 62-68; ns.rs:34-38, 52-58, 62-68; ptr.rs:39-41, 55-61, 65-71: a name
    and nothing else; all three files delegate to the name. *)
Definition name_try_from : P fqdn := extract_fqdn.
Definition name_byte_size (f : fqdn) : nat := fqdn_byte_size f.
Definition name_to_bytes (f : fqdn) : bytes := fqdn_to_bytes f.
Definition name_to_bytes_compressed := fqdn_to_bytes_compressed.
Definition name_byte_size_compressed := fqdn_byte_size_compressed.

(** ** dhcid.rs: 28-44, 105-132, 65-77, 91-93, 95-101. *)
Inductive idtype : Set := Chaddr | ClientId | DUID.
Definition idtype_code (i : idtype) : N := match i with Chaddr => 0 | ClientId => 1 | DUID => 2 end.
Definition idtype_try_from (n : N) : res idtype :=
  ok_or (assoc n [(0, Chaddr); (1, ClientId); (2, DUID)]) (InvalidIdentifierTypeError n).
Record dhcid := mkDhcid { dhcid_code : idtype; dhcid_digest : bytes }.
Definition dhcid_try_from : P dhcid :=
  i <- extract_u16_as idtype_try_from ;;
  d <- extract_u8 ;;
  if negb (d =? 1) then fail (InvalidDigestType d)
  else dig <- extract_rest ;; ret (mkDhcid i dig).
Definition dhcid_byte_size (x : dhcid) : nat := 2 + 1 + length (dhcid_digest x).
Definition dhcid_to_bytes (x : dhcid) : bytes :=
  be 2 (idtype_code (dhcid_code x)) ++ [1] ++ dhcid_digest x.
(** dhcid.rs:48-59, [Dhcid::new]; SHA-256 (crate ring) is a parameter. *)
Definition dhcid_new (sha256 : bytes -> bytes) (i : idtype) (identifier : bytes) (f : fqdn) : dhcid :=
  mkDhcid i (sha256 (identifier ++ fqdn_to_bytes f)).

(** ** eui48.rs:16-18, 32-38; eui64.rs:16-18, 32-38: fixed byte arrays. *)
Definition eui48_try_from : P bytes := extract_bytes 6.
Definition eui48_byte_size (x : bytes) : nat := 6.
Definition eui48_to_bytes (x : bytes) : bytes := x.
Definition eui64_try_from : P bytes := extract_bytes 8.
Definition eui64_byte_size (x : bytes) : nat := 8.
Definition eui64_to_bytes (x : bytes) : bytes := x.

(** ** hinfo.rs:14-17, 28-33, 47-49, 51-58. *)
Record hinfo := mkHinfo { hinfo_cpu : bytes; hinfo_os : bytes }.
Definition hinfo_try_from : P hinfo :=
  c <- extract_character_string ;; o <- extract_character_string ;; ret (mkHinfo c o).
Definition hinfo_byte_size (x : hinfo) : nat := length (hinfo_cpu x) + length (hinfo_os x) + 2.
Definition hinfo_to_bytes (x : hinfo) : bytes := char_string (hinfo_cpu x) ++ char_string (hinfo_os x).

(** ** hip.rs:10-34, 39-62, 76-84, 86-99. *)
Record hip := mkHip { hip_alg : alg; hip_hit : bytes; hip_pk : bytes; hip_rv : option (list fqdn) }.
Definition names_step (acc : list fqdn) : P (list fqdn) := f <- extract_fqdn ;; ret (acc ++ [f]).
Definition hip_try_from : P hip :=
  hit_len <- extract_u8 ;;
  a <- extract_u8_as alg_try_from ;;
  pk_len <- extract_u16 ;;
  hit <- extract_bytes (N.to_nat hit_len) ;;
  pk <- extract_bytes (N.to_nat pk_len) ;;
  fun b =>
    if (remaining b =? 0)%nat then (Ok (mkHip a hit pk None), b)
    else (ns <- loop_remaining names_step [] ;; ret (mkHip a hit pk (Some ns))) b.
Definition sum_sizes (l : list fqdn) : nat := fold_right (fun f n => (fqdn_byte_size f + n)%nat) 0%nat l.
Definition hip_byte_size (x : hip) : nat :=
  4 + length (hip_hit x) + length (hip_pk x)
  + match hip_rv x with Some l => sum_sizes l | None => 0 end.
Definition hip_to_bytes (x : hip) : bytes :=
  [len8 (length (hip_hit x))] ++ [alg_code (hip_alg x)] ++ be 2 (len16 (length (hip_pk x)))
  ++ hip_hit x ++ hip_pk x
  ++ match hip_rv x with Some l => flat_map fqdn_to_bytes l | None => [] end.

(** ** ipseckey.rs:15-30, 104-140, 35-60, 74-76, 78-86. *)
Inductive gateway := GwNone | GwV4 (a : N) | GwV6 (a : N) | GwDomain (f : fqdn).
Record ipseckey := mkIpsec { ip_prec : N; ip_alg : alg; ip_gw : gateway; ip_pk : bytes }.
Definition gateway_type (g : gateway) : N :=
  match g with GwNone => 0 | GwV4 _ => 1 | GwV6 _ => 2 | GwDomain _ => 3 end.
Definition gateway_byte_size (g : gateway) : nat :=
  match g with GwNone => 1 | GwV4 _ => 4 | GwV6 _ => 16 | GwDomain f => fqdn_byte_size f end.
Definition gateway_to_bytes (g : gateway) : bytes :=
  match g with GwNone => [46] | GwV4 a => be 4 a | GwV6 a => be 16 a | GwDomain f => fqdn_to_bytes f end.
Definition ipseckey_try_from : P ipseckey :=
  prec <- extract_u8 ;;
  gt <- extract_u8 ;;
  a <- extract_u8_as alg_try_from ;;
  gw <- match gt with
        | 0 => _ <- extract_u8 ;; ret GwNone
        | 1 => x <- extract_u32 ;; ret (GwV4 x)
        | 2 => x <- extract_bytes 16 ;; ret (GwV6 (unbe x))
        | 3 => f <- extract_fqdn ;; ret (GwDomain f)
        | _ => fail (InvalidIpSecKeyGatewayType gt)
        end ;;
  pk <- extract_rest ;;
  ret (mkIpsec prec a gw pk).
Definition ipseckey_byte_size (x : ipseckey) : nat :=
  3 + gateway_byte_size (ip_gw x) + length (ip_pk x).
Definition ipseckey_to_bytes (x : ipseckey) : bytes :=
  [ip_prec x] ++ [gateway_type (ip_gw x)] ++ [alg_code (ip_alg x)] ++ gateway_to_bytes (ip_gw x)
  ++ ip_pk x.

(** ** loc.rs:15-84, 89-99, 113-115, 117-127. *)
Record loc := mkLoc { loc_version : N; loc_size : N; loc_horiz : N; loc_vert : N; loc_lat : N;
                      loc_long : N; loc_alt : N }.
Definition loc_try_from : P loc :=
  v <- extract_u8 ;; s <- extract_u8 ;; h <- extract_u8 ;; p <- extract_u8 ;;
  la <- extract_u32 ;; lo <- extract_u32 ;; al <- extract_u32 ;;
  ret (mkLoc v s h p la lo al).
Definition loc_byte_size (x : loc) : nat := 16.
Definition loc_to_bytes (x : loc) : bytes :=
  [loc_version x] ++ [loc_size x] ++ [loc_horiz x] ++ [loc_vert x] ++ be 4 (loc_lat x)
  ++ be 4 (loc_long x) ++ be 4 (loc_alt x).

(** ** minfo.rs:14-31, 42-47, 61-63, 65-70, 74-77, 79-88. *)
Record minfo := mkMinfo { minfo_r : fqdn; minfo_e : fqdn }.
Definition minfo_try_from : P minfo := r <- extract_fqdn ;; e <- extract_fqdn ;; ret (mkMinfo r e).
Definition minfo_byte_size (x : minfo) : nat := fqdn_byte_size (minfo_r x) + fqdn_byte_size (minfo_e x).
Definition minfo_to_bytes (x : minfo) : bytes := fqdn_to_bytes (minfo_r x) ++ fqdn_to_bytes (minfo_e x).
Definition minfo_to_bytes_compressed (h : hasher) (x : minfo) (m : names) (off : nat) : bytes * names :=
  let '(b1, m1) := fqdn_to_bytes_compressed h (minfo_r x) m off in
  let '(b2, m2) := fqdn_to_bytes_compressed h (minfo_e x) m1 (off + length b1) in
  (b1 ++ b2, m2).
Definition minfo_byte_size_compressed (h : hasher) (x : minfo) (m : names) (off : nat) : nat * names :=
  let '(n1, m1) := fqdn_byte_size_compressed h (minfo_r x) m off in
  let '(n2, m2) := fqdn_byte_size_compressed h (minfo_e x) m1 off in
  ((n1 + n2)%nat, m2).

(** ** mx.rs:14-23, 37-42, 56-58, 60-65, 69-71, 73-78. *)
Record mx := mkMx { mx_pref : N; mx_exchange : fqdn }.
Definition mx_try_from : P mx := p <- extract_u16 ;; f <- extract_fqdn ;; ret (mkMx p f).
Definition mx_byte_size (x : mx) : nat := 2 + fqdn_byte_size (mx_exchange x).
Definition mx_to_bytes (x : mx) : bytes := be 2 (mx_pref x) ++ fqdn_to_bytes (mx_exchange x).
Definition mx_to_bytes_compressed (h : hasher) (x : mx) (m : names) (off : nat) : bytes * names :=
  let '(b, m') := fqdn_to_bytes_compressed h (mx_exchange x) m (off + 2) in
  (be 2 (mx_pref x) ++ b, m').
Definition mx_byte_size_compressed (h : hasher) (x : mx) (m : names) (off : nat) : nat * names :=
  let '(n, m') := fqdn_byte_size_compressed h (mx_exchange x) m off in ((2 + n)%nat, m').

(** ** naptr.rs:17-70, 177-207, 95-108, 122-129, 131-143, 147-155, 157-173. *)
Inductive nflag : Set := FlS | FlA | FlU | FlP.
Definition nflag_code (f : nflag) : N := match f with FlS => 83 | FlA => 65 | FlU => 85 | FlP => 80 end.
Definition nflag_try_from (n : N) : res nflag :=
  ok_or (assoc n [(83, FlS); (65, FlA); (85, FlU); (80, FlP)]) (InvalidNaptrFlag n).
(** naptr.rs:99-103: [flat_map(|ch| Flag::try_from(ch))] drops the bytes that are not flags. *)
Definition nflags_of (s : bytes) : list nflag :=
  flat_map (fun ch => match nflag_try_from ch with Ok f => [f] | _ => [] end) s.
Record naptr := mkNaptr { na_order : N; na_pref : N; na_flags : list nflag; na_service : bytes;
                          na_regexp : bytes; na_repl : fqdn }.
Definition naptr_try_from : P naptr :=
  o <- extract_u16 ;;
  p <- extract_u16 ;;
  fl <- extract_character_string ;;
  s <- extract_character_string ;;
  r <- extract_string ;;
  f <- extract_fqdn ;;
  ret (mkNaptr o p (nflags_of fl) s r f).
Definition naptr_fixed_size (x : naptr) : nat :=
  4 + 3 + length (na_flags x) + length (na_service x) + length (na_regexp x).
Definition naptr_byte_size (x : naptr) : nat := naptr_fixed_size x + fqdn_byte_size (na_repl x).
Definition naptr_fixed_bytes (x : naptr) : bytes :=
  be 2 (na_order x) ++ be 2 (na_pref x) ++ char_string (map nflag_code (na_flags x))
  ++ char_string (na_service x) ++ char_string (na_regexp x).
Definition naptr_to_bytes (x : naptr) : bytes := naptr_fixed_bytes x ++ fqdn_to_bytes (na_repl x).
Definition naptr_to_bytes_compressed (h : hasher) (x : naptr) (m : names) (off : nat) : bytes * names :=
  let fb := naptr_fixed_bytes x in
  let '(b, m') := fqdn_to_bytes_compressed h (na_repl x) m (off + length fb) in
  (fb ++ b, m').
Definition naptr_byte_size_compressed (h : hasher) (x : naptr) (m : names) (off : nat) : nat * names :=
  let s := naptr_fixed_size x in
  let '(n, m') := fqdn_byte_size_compressed h (na_repl x) m (off + s) in ((s + n)%nat, m').

(** ** null.rs:27-31, 45-51; openpgpkey.rs:21-23, 37-43: opaque bytes. *)
Definition opaque_try_from : P bytes := extract_rest.
Definition opaque_byte_size (x : bytes) : nat := length x.
Definition opaque_to_bytes (x : bytes) : bytes := x.

(** ** opt.rs:27, 32-41, 55-57, 59-67.
    [HashMap<u16, Vec<u8>>]: the list of its entries in the order in which this map iterates.  The
    order is not specified by Rust, so theorems quantify over all orders.  [HashMap::insert]
    replaces the value of a present key. *)
Definition opt := list (N * bytes).
Fixpoint opt_insert (k : N) (v : bytes) (m : opt) : opt :=
  match m with
  | [] => [(k, v)]
  | (k', v') :: m' => if k =? k' then (k, v) :: m' else (k', v') :: opt_insert k v m'
  end.
Definition opt_step (m : opt) : P opt :=
  code <- extract_u16 ;;
  len <- extract_u16 ;;
  d <- extract_bytes (N.to_nat len) ;;
  ret (opt_insert code d m).
Definition opt_try_from : P opt := loop_remaining opt_step [].
Definition opt_byte_size (m : opt) : nat :=
  2 + fold_left (fun acc e => (acc + length (snd e))%nat) m 0%nat.
Definition opt_entry_bytes (e : N * bytes) : bytes :=
  be 2 (fst e) ++ be 2 (len16 (length (snd e))) ++ snd e.
Definition opt_to_bytes (m : opt) : bytes := flat_map opt_entry_bytes m.

(** ** soa.rs:14-45, 72-82, 96-98, 100-110, 114-118, 120-130. *)
Record soa := mkSoa { soa_mname : fqdn; soa_rname : fqdn; soa_serial : N; soa_refresh : N;
                      soa_retry : N; soa_expire : N; soa_minimum : N }.
Definition soa_try_from : P soa :=
  m <- extract_fqdn ;; r <- extract_fqdn ;;
  a <- extract_u32 ;; b <- extract_u32 ;; c <- extract_u32 ;; d <- extract_u32 ;; e <- extract_u32 ;;
  ret (mkSoa m r a b c d e).
Definition soa_byte_size (x : soa) : nat :=
  fqdn_byte_size (soa_mname x) + fqdn_byte_size (soa_rname x) + 4 * 5.
Definition soa_fixed_bytes (x : soa) : bytes :=
  be 4 (soa_serial x) ++ be 4 (soa_refresh x) ++ be 4 (soa_retry x) ++ be 4 (soa_expire x)
  ++ be 4 (soa_minimum x).
Definition soa_to_bytes (x : soa) : bytes :=
  fqdn_to_bytes (soa_mname x) ++ fqdn_to_bytes (soa_rname x) ++ soa_fixed_bytes x.
Definition soa_to_bytes_compressed (h : hasher) (x : soa) (m : names) (off : nat) : bytes * names :=
  let '(b1, m1) := fqdn_to_bytes_compressed h (soa_mname x) m off in
  let '(b2, m2) := fqdn_to_bytes_compressed h (soa_rname x) m1 (off + length b1) in
  (b1 ++ b2 ++ soa_fixed_bytes x, m2).
Definition soa_byte_size_compressed (h : hasher) (x : soa) (m : names) (off : nat) : nat * names :=
  let '(n1, m1) := fqdn_byte_size_compressed h (soa_mname x) m off in
  let '(n2, m2) := fqdn_byte_size_compressed h (soa_rname x) m1 off in
  ((n1 + n2 + 4 * 5)%nat, m2).

(** ** srv.rs:15-50, 66-73, 87-89, 91-98, 102-104, 106-113. *)
Record srv := mkSrv { srv_prio : N; srv_weight : N; srv_port : N; srv_target : fqdn }.
Definition srv_try_from : P srv :=
  p <- extract_u16 ;; w <- extract_u16 ;; q <- extract_u16 ;; f <- extract_fqdn ;;
  ret (mkSrv p w q f).
Definition srv_byte_size (x : srv) : nat := 3 * 2 + fqdn_byte_size (srv_target x).
Definition srv_fixed_bytes (x : srv) : bytes := be 2 (srv_prio x) ++ be 2 (srv_weight x) ++ be 2 (srv_port x).
Definition srv_to_bytes (x : srv) : bytes := srv_fixed_bytes x ++ fqdn_to_bytes (srv_target x).
Definition srv_to_bytes_compressed (h : hasher) (x : srv) (m : names) (off : nat) : bytes * names :=
  let '(b, m') := fqdn_to_bytes_compressed h (srv_target x) m (off + 6) in
  (srv_fixed_bytes x ++ b, m').
Definition srv_byte_size_compressed (h : hasher) (x : srv) (m : names) (off : nat) : nat * names :=
  let '(n, m') := fqdn_byte_size_compressed h (srv_target x) m (off + 6) in ((3 * 2 + n)%nat, m').

(** ** sshfp.rs:12-16, 69-93, 35-41, 55-57, 59-65. *)
Inductive fptype : Set := FpReserved | FpSHA1.
Definition fptype_code (f : fptype) : N := match f with FpReserved => 0 | FpSHA1 => 1 end.
Definition fptype_try_from (n : N) : res fptype :=
  ok_or (assoc n [(0, FpReserved); (1, FpSHA1)]) (InvalidSSHFPFingerprintType n).
Record sshfp := mkSshfp { ssh_alg : alg; ssh_type : fptype; ssh_fp : bytes }.
Definition sshfp_try_from : P sshfp :=
  a <- extract_u8_as alg_try_from ;;
  t <- extract_u8_as fptype_try_from ;;
  f <- extract_character_string ;;
  ret (mkSshfp a t f).
Definition sshfp_byte_size (x : sshfp) : nat := 1 + 1 + length (ssh_fp x).
Definition sshfp_to_bytes (x : sshfp) : bytes :=
  [alg_code (ssh_alg x)] ++ [fptype_code (ssh_type x)] ++ ssh_fp x.

(** ** tlsa.rs:13-39, 96-183, 60-67, 81-83, 85-92. *)
Inductive cert_usage : Set := CuCa | CuService | CuTrustAnchor | CuDomainIssued.
Definition cert_usage_code (x : cert_usage) : N :=
  match x with CuCa => 0 | CuService => 1 | CuTrustAnchor => 2 | CuDomainIssued => 3 end.
Definition cert_usage_try_from (n : N) : res cert_usage :=
  ok_or (assoc n [(0, CuCa); (1, CuService); (2, CuTrustAnchor); (3, CuDomainIssued)])
        (InvalidTLSACertUsage n).
Inductive selector : Set := SelFull | SelSpki.
Definition selector_code (x : selector) : N := match x with SelFull => 0 | SelSpki => 1 end.
Definition selector_try_from (n : N) : res selector :=
  ok_or (assoc n [(0, SelFull); (1, SelSpki)]) (InvalidSSHFPAlgorithm n).
Inductive matching : Set := MtExact | MtSHA256 | MtSHA512.
Definition matching_code (x : matching) : N := match x with MtExact => 0 | MtSHA256 => 1 | MtSHA512 => 2 end.
Definition matching_try_from (n : N) : res matching :=
  ok_or (assoc n [(0, MtExact); (1, MtSHA256); (2, MtSHA512)]) (InvalidSSHFPAlgorithm n).
Record tlsa := mkTlsa { tlsa_usage : cert_usage; tlsa_sel : selector; tlsa_match : matching;
                        tlsa_data : bytes }.
Definition tlsa_try_from : P tlsa :=
  u <- extract_u8_as cert_usage_try_from ;;
  s <- extract_u8_as selector_try_from ;;
  m <- extract_u8_as matching_try_from ;;
  d <- extract_rest ;;
  ret (mkTlsa u s m d).
Definition tlsa_byte_size (x : tlsa) : nat := 3 * 1 + length (tlsa_data x).
Definition tlsa_to_bytes (x : tlsa) : bytes :=
  [cert_usage_code (tlsa_usage x)] ++ [selector_code (tlsa_sel x)] ++ [matching_code (tlsa_match x)]
  ++ tlsa_data x.

(** ** tkey.rs:10-42, 105-186, 47-67, 81-87, 89-101. *)
Inductive tkmode : Set := TmServer | TmDH | TmGss | TmResolver | TmDelete | TmAvailable (n : N).
Definition tkmode_code (x : tkmode) : N :=
  match x with TmServer => 1 | TmDH => 2 | TmGss => 3 | TmResolver => 4 | TmDelete => 5
             | TmAvailable n => n end.
Definition tkmode_try_from (n : N) : res tkmode :=
  match assoc n [(1, TmServer); (2, TmDH); (3, TmGss); (4, TmResolver); (5, TmDelete)] with
  | Some m => Ok m
  | None => if (6 <=? n) && (n <=? 65534) then Ok (TmAvailable n) else Err (InvalidTkeyMode n)
  end.
Inductive tkerr : Set := TeNone | TeRcode (n : N) | TeBadSig | TeBadKey | TeBadTime | TeBadMode
                       | TeBadName | TeBadAlg.
Definition tkerr_code (x : tkerr) : N :=
  match x with TeNone => 0 | TeRcode n => n | TeBadSig => 16 | TeBadKey => 17 | TeBadTime => 18
             | TeBadMode => 19 | TeBadName => 20 | TeBadAlg => 21 end.
Definition tkerr_try_from (n : N) : res tkerr :=
  if n =? 0 then Ok TeNone
  else if (1 <=? n) && (n <=? 15) then Ok (TeRcode n)
  else ok_or (assoc n [(16, TeBadSig); (17, TeBadKey); (18, TeBadTime); (19, TeBadMode);
                       (20, TeBadName); (21, TeBadAlg)]) (InvalidTkeyError n).
Record tkey := mkTkey { tk_alg : fqdn; tk_inc : N; tk_exp : N; tk_mode : tkmode; tk_err : tkerr;
                        tk_key : bytes; tk_other : bytes }.
Definition tkey_try_from : P tkey :=
  a <- extract_fqdn ;;
  i <- extract_u32 ;;
  e <- extract_u32 ;;
  m <- extract_u16_as tkmode_try_from ;;
  r <- extract_u16_as tkerr_try_from ;;
  ks <- extract_u16 ;;
  k <- extract_bytes (N.to_nat ks) ;;
  os <- extract_u16 ;;
  o <- extract_bytes (N.to_nat os) ;;
  ret (mkTkey a i e m r k o).
Definition tkey_byte_size (x : tkey) : nat :=
  fqdn_byte_size (tk_alg x) + 2 * 4 + 4 * 2 + length (tk_key x) + length (tk_other x).
Definition tkey_to_bytes (x : tkey) : bytes :=
  fqdn_to_bytes (tk_alg x) ++ be 4 (tk_inc x) ++ be 4 (tk_exp x) ++ be 2 (tkmode_code (tk_mode x))
  ++ be 2 (tkerr_code (tk_err x)) ++ be 2 (len16 (length (tk_key x))) ++ tk_key x
  ++ be 2 (len16 (length (tk_other x))) ++ tk_other x.

(** ** tsig.rs:19-59, 124-157, 64-85, 99-105, 107-120.  The [println!] at 109 is in Print.v. *)
Inductive tserr : Set := TsNone | TsBadSig | TsBadKey | TsBadTime | TsBadTrunc.
Definition tserr_code (x : tserr) : N :=
  match x with TsNone => 0 | TsBadSig => 16 | TsBadKey => 17 | TsBadTime => 18 | TsBadTrunc => 22 end.
Definition tserr_try_from (n : N) : res tserr :=
  ok_or (assoc n [(0, TsNone); (16, TsBadSig); (17, TsBadKey); (18, TsBadTime); (22, TsBadTrunc)])
        (InvalidTkeyError n).
Record tsig := mkTsig { ts_alg : fqdn; ts_time : N; ts_fudge : N; ts_mac : bytes; ts_id : N;
                        ts_err : tserr; ts_other : bytes }.
Definition tsig_try_from : P tsig :=
  a <- extract_fqdn ;;
  t <- extract_bytes 6 ;;
  f <- extract_u16 ;;
  ml <- extract_u16 ;;
  m <- extract_bytes (N.to_nat ml) ;;
  i <- extract_u16 ;;
  e <- extract_u16_as tserr_try_from ;;
  ol <- extract_u16 ;;
  o <- extract_bytes (N.to_nat ol) ;;
  ret (mkTsig a (unbe ([0; 0] ++ t)) f m i e o).
Definition tsig_byte_size (x : tsig) : nat :=
  fqdn_byte_size (ts_alg x) + 6 + 5 * 2 + length (ts_mac x) + length (ts_other x).
Definition tsig_to_bytes (x : tsig) : bytes :=
  fqdn_to_bytes (ts_alg x) ++ skipn 2 (be 8 (ts_time x)) ++ be 2 (ts_fudge x)
  ++ be 2 (len16 (length (ts_mac x))) ++ ts_mac x ++ be 2 (ts_id x) ++ be 2 (tserr_code (ts_err x))
  ++ be 2 (len16 (length (ts_other x))) ++ ts_other x.

(** ** txt.rs:11, 22-31, 45-47, 49-56. *)
Definition txt := list bytes.
Definition txt_step (acc : txt) : P txt :=
  n <- extract_u8 ;; s <- extract_bytes (N.to_nat n) ;; ret (acc ++ [utf8_lossy s]).
Definition txt_try_from : P txt := loop_remaining txt_step [].
Definition txt_byte_size (x : txt) : nat := fold_left (fun acc e => (acc + length e + 1)%nat) x 0%nat.
Definition txt_to_bytes (x : txt) : bytes := fold_left (fun buf e => buf ++ char_string e) x [].

(** ** uri.rs:21-40, 55-61, 75-77, 79-85. *)
Record uri := mkUri { uri_prio : N; uri_weight : N; uri_target : bytes }.
Definition uri_try_from : P uri :=
  p <- extract_u16 ;; w <- extract_u16 ;; t <- extract_rest ;; ret (mkUri p w t).
Definition uri_byte_size (x : uri) : nat := 2 * 2 + length (uri_target x).
Definition uri_to_bytes (x : uri) : bytes := be 2 (uri_prio x) ++ be 2 (uri_weight x) ++ uri_target x.

(** ** wks.rs:26-36, 51-57, 71-73, 75-81. *)
Record wks := mkWks { wks_addr : N; wks_proto : N; wks_bitmap : bytes }.
Definition wks_try_from : P wks :=
  a <- extract_u32 ;; p <- extract_u8 ;; b <- extract_rest ;; ret (mkWks a p b).
Definition wks_byte_size (x : wks) : nat := 4 + 1 + length (wks_bitmap x).
Definition wks_to_bytes (x : wks) : bytes := be 4 (wks_addr x) ++ [wks_proto x] ++ wks_bitmap x.
