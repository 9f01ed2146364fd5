(** * Specification: which octets each kind of record data is read from.

    For every type the pieces its data consists of, one behind the other, in terms of the raw octets of
    the message only; no parser of the model occurs.  Names may use compression pointers into the
    message before them ([name_at]).  Taken from the model: the value types, the numbers of the
    enumerations (against the registries in C50, unambiguous by C19 - C21). *)
From Verif Require Import Base RepairSpec Fqdn Header Types RDataBasic Bitmap Svcb RDataSec RData Packet BaseFacts Utf8Facts NameSpec
  CodeSpec HeaderSpec WireSpec FailSpec FieldSpec.

(** A piece of data: where it begins and where the next one begins. *)
Definition piece := nat -> nat -> Prop.
(** The pieces follow each other from [p] to [e]. *)
Fixpoint laid (ps : list piece) (p e : nat) : Prop :=
  match ps with
  | [] => p = e
  | x :: ps' => exists m, x p m /\ laid ps' m e
  end.

(** The octets of [s] from [p] on. *)
Definition octets_at (d : bytes) (p : nat) (s : bytes) : Prop := (p + length s <= length d)%nat /\ slice d p (length s) = s.

Section Pieces.
  Context (d : bytes).
  (** An integer of [w] octets, most significant first. *)
  Definition num (w : nat) (v : N) : piece := fun p e => number_at d p w v /\ e = (p + w)%nat.
  (** One for which [such] holds. *)
  Definition num_such (w : nat) (such : N -> Prop) : piece := fun p e => exists v, such v /\ num w v p e.
  Definition name (f : list bytes) : piece := fun p e => name_at d 191 p f e.
  (** A length octet and as many octets. *)
  Definition str (s : bytes) : piece := fun p e => string_at d p s e.
  (** These octets. *)
  Definition octets (s : bytes) : piece := fun p e => octets_at d p s /\ e = (p + length s)%nat.
  (** All octets up to the end. *)
  Definition rest (s : bytes) : piece := fun p e => s = skipn p d /\ e = length d.
  (** Two octets with the length, then the octets. *)
  Definition sized (s : bytes) : piece := fun p e => exists m, num 2 (N.of_nat (length s)) p m /\ octets s m e.
  (** Entries one after the other, up to the end. *)
  Definition entries {X} (entry : nat -> X -> nat -> Prop) (xs : list X) : piece := fun p e => consecutive entry p xs e /\ e = length d.

  (** APL (RFC 3123, 4), first item only: the lowest bit of AFDLENGTH is ignored, and of a longer address
      the first [w] octets count. *)
  Definition apl_address (n : bool) (w : nat) (a : N) : piece := fun p e => exists o s,
    num 1 o p (S p) /\ n = N.testbit o 7 /\ N.of_nat (length s) = o mod 128 / 2 * 2 /\ octets s (S p) e /\
    a = fold_left (fun v x => v * 256 + x) (firstn w (s ++ repeat 0 w)) 0.
  (** Those octets of NAPTR flags that are flags. *)
  Inductive flags_in : bytes -> list nflag -> Prop :=
  | no_flags : flags_in [] []
  | a_flag o s f fs : In (f, o) iana_nflag -> flags_in s fs -> flags_in (o :: s) (f :: fs)
  | not_a_flag o s fs : (forall f, ~ In (f, o) iana_nflag) -> flags_in s fs -> flags_in (o :: s) fs.
  Definition naptr_flags (fs : list nflag) : piece := fun p e => exists s, str s p e /\ flags_in s fs.
  (** A string that is valid UTF-8. *)
  Definition text_str (s : bytes) : piece := fun p e => str s p e /\ is_text s.
  (** No gateway: one octet is skipped. *)
  Definition gateway_at (g : gateway) : piece :=
    match g with GwNone => num_such 1 (fun _ => True) | GwV4 a => num 4 a | GwV6 a => num 16 a | GwDomain f => name f end.
  (** HIP servers: "none" if nothing is left. *)
  Definition servers (rv : option (list (list bytes))) : piece := fun p e =>
    match rv with
    | None => p = length d /\ e = length d
    | Some l => (p < length d)%nat /\ entries (fun p f e => name f p e) l p e
    end.
  (** Windows of type bitmaps; every marked number has to be a known type. *)
  Definition bitmaps (c : cfg) (ts : list rtype) : piece := fun p e => exists ws,
    windows_at d p ws /\ (forall n, marked ws n -> exists t, bit_means c n t) /\
    sorted_by rtype_code ts /\ (forall t, In t ts <-> exists n, marked ws n /\ bit_means c n t) /\ e = length d.
  (** SVCB parameters: of several with the same key the first. *)
  Definition params (ps : list param) : piece := fun p e => exists all,
    consecutive (param_at d) p all e /\ e = length d /\
    sorted_by param_code ps /\ forall y, In y ps <-> first_of param_code all y.

  Definition pieces (c : cfg) (x : rdata) : list piece :=
    match x with
    | DA a => [num 4 a]
    | DNS f | DCNAME f | DPTR f => [name f]
    | DSOA x => [name (soa_mname x); name (soa_rname x); num 4 (soa_serial x); num 4 (soa_refresh x); num 4 (soa_retry x);
                 num 4 (soa_expire x); num 4 (soa_minimum x)]
    | DNULL b | DOPENPGPKEY b => [rest b]
    | DWKS x => [num 4 (wks_addr x); num 1 (wks_proto x); rest (wks_bitmap x)]
    | DHINFO x => [str (hinfo_cpu x); str (hinfo_os x)]
    | DMINFO x => [name (minfo_r x); name (minfo_e x)]
    | DMX x => [num 2 (mx_pref x); name (mx_exchange x)]
    | DTXT l => [fun p e => exists raw, entries (string_at d) raw p e /\ Forall2 repaired raw l]
    | DAAAA a => [num 16 a]
    | DLOC x => [num 1 (loc_version x); num 1 (loc_size x); num 1 (loc_horiz x); num 1 (loc_vert x); num 4 (loc_lat x);
                 num 4 (loc_long x); num 4 (loc_alt x)]
    | DSRV x => [num 2 (srv_prio x); num 2 (srv_weight x); num 2 (srv_port x); name (srv_target x)]
    | DNAPTR x => [num 2 (na_order x); num 2 (na_pref x); naptr_flags (na_flags x); str (na_service x); text_str (na_regexp x);
                   name (na_repl x)]
    (* of several options with the same code the last; the model lists the codes of the hash map in the order they come first *)
    | DOPT m => [fun p e => exists all, entries (option_at d) all p e /\ (forall x, In x m <-> last_of fst all x) /\
                   map fst m = rev (nodup N.eq_dec (rev (map fst all)))]
    | DAPL x => match apl_afd x with
                | AfdV4 a => [num 2 1; num 1 (apl_prefix x); apl_address (apl_n x) 4 a]
                | AfdV6 a => [num 2 2; num 1 (apl_prefix x); apl_address (apl_n x) 16 a]
                end
    | DDS x | DCDS x => [num 2 (ds_tag x); num 1 (salg_code (ds_alg x)); num 1 (digest_type_code (ds_dt x)); rest (ds_digest x)]
    (* not as RFC 4255: the fingerprint is read as a length and octets *)
    | DSSHFP x => [num 1 (alg_code (ssh_alg x)); num 1 (fptype_code (ssh_type x)); str (ssh_fp x)]
    | DIPSECKEY x => [num 1 (ip_prec x); num 1 (gateway_type (ip_gw x)); num 1 (alg_code (ip_alg x)); gateway_at (ip_gw x); rest (ip_pk x)]
    | DRRSIG x => [fun p e => decodable c (rs_type x) /\ num 2 (rtype_code (rs_type x)) p e; num 1 (salg_code (rs_alg x)); num 1 (rs_labels x);
                   num 4 (rs_ttl x); num 4 (rs_exp x); num 4 (rs_inc x); num 2 (rs_tag x); name (rs_signer x); rest (rs_sig x)]
    | DNSEC x => [name (ns_next x); bitmaps c (ns_types x)]
    (* bit 7 of the flags is Zone Key, bit 15 is Secure Entry Point; the others are dropped *)
    | DDNSKEY x | DCDNSKEY x =>
        [num_such 2 (fun f => dk_zone x = N.testbit f 8 /\ dk_sep x = N.testbit f 0); num 1 (dk_protocol x);
         num 1 (salg_code (dk_alg x)); rest (dk_pk x)]
    | DDHCID x => [num 2 (idtype_code (dhcid_code x)); num 1 1; rest (dhcid_digest x)]
    | DTLSA x => [num 1 (cert_usage_code (tlsa_usage x)); num 1 (selector_code (tlsa_sel x)); num 1 (matching_code (tlsa_match x));
                  rest (tlsa_data x)]
    | DHIP x => [num 1 (N.of_nat (length (hip_hit x))); num 1 (alg_code (hip_alg x)); num 2 (N.of_nat (length (hip_pk x)));
                 octets (hip_hit x); octets (hip_pk x); servers (hip_rv x)]
    | DCSYNC x => [num 4 (cs_serial x); fun p e => num 2 (cs_flags x) p e /\ cs_flags x < 4; bitmaps c (cs_types x)]
    | DSVCB x => [num 2 (sv_prio x); name (sv_target x); params (sv_params x)]
    | DEUI48 b => [fun p e => octets b p e /\ length b = 6%nat]
    | DEUI64 b => [fun p e => octets b p e /\ length b = 8%nat]
    | DTKEY x => [name (tk_alg x); num 4 (tk_inc x); num 4 (tk_exp x);
                  fun p e => tkmode_documented (tk_mode x) /\ num 2 (tkmode_code (tk_mode x)) p e;
                  fun p e => tkerr_documented (tk_err x) /\ num 2 (tkerr_code (tk_err x)) p e;
                  sized (tk_key x); sized (tk_other x)]
    | DTSIG x => [name (ts_alg x); num 6 (ts_time x); num 2 (ts_fudge x); sized (ts_mac x); num 2 (ts_id x); num 2 (tserr_code (ts_err x));
                  sized (ts_other x)]
    | DURI x => [num 2 (uri_prio x); num 2 (uri_weight x); rest (uri_target x)]
    (* bit 0 of the flags is Issuer Critical, the others are dropped *)
    | DCAA x => [num_such 1 (fun f => caa_critical x = N.testbit f 7);
                 fun p e => exists raw, raw <> [] /\ str raw p e /\ repaired raw (caa_tag x); rest (caa_value x)]
    end.
End Pieces.

(** The data [x] is read from the octets between [p] and [e]; those behind [m] are not looked at. *)
Definition data_at (c : cfg) (d : bytes) (p : nat) (x : rdata) (e : nat) : Prop :=
  exists m, (m <= e)%nat /\ laid (pieces (firstn e d) c x) p m.

(** Records and packets (RFC 1035, 4.1.3 and 4.1), as in [WireSpec], with [data_at] for the data. *)
Definition record_on_wire (c : cfg) (d : bytes) (p : nat) (r : rr) (e : nat) : Prop :=
  exists k v len,
    name_at d 191 p (rr_name r) k /\
    u16_at d k (rtype_code (rr_type r)) /\ decodable c (rr_type r) /\ rdata_type (rr_data r) = rr_type r /\
    u16_at d (k + 2) v /\ rclass_code (rr_class r) = v mod 32768 /\ rclass_plain (rr_class r) /\
    rr_flush r = top_bit c v /\
    u32_at d (k + 4) (rr_ttl r) /\
    u16_at d (k + 8) len /\
    e = (k + 10 + N.to_nat len)%nat /\ (e <= length d)%nat /\
    data_at c d (k + 10) (rr_data r) e.
Definition packet_on_wire (c : cfg) (d : bytes) (p : packet) (e : nat) : Prop :=
  (12 <= length d)%nat /\ byte_list (firstn 12 d) /\
  header_typed (p_header p) /\ view (p_header p) = fields_of (firstn 12 d) /\
  (N.of_nat (length (p_questions p)) = v_qd (fields_of d) /\ N.of_nat (length (p_answers p)) = v_an (fields_of d) /\
   N.of_nat (length (p_authorities p)) = v_ns (fields_of d) /\ N.of_nat (length (p_additionals p)) = v_ar (fields_of d)) /\
  exists e1 e2 e3,
    consecutive (question_at c d) 12 (p_questions p) e1 /\ consecutive (record_on_wire c d) e1 (p_answers p) e2 /\
    consecutive (record_on_wire c d) e2 (p_authorities p) e3 /\ consecutive (record_on_wire c d) e3 (p_additionals p) e.
