(** * Properties C41 - C45: type bitmaps, SVCB parameters, texts and EDNS options *)
From Coq Require Import Sorting.Permutation Sorting.Sorted Lia ZifyNat ZifyN.
From Verif Require Import Base Utf8 Buffer Fqdn Types RDataBasic Bitmap Svcb RDataSec RData BaseFacts Utf8Facts BufferFacts NameSpec FqdnFacts
  CodeSpec RDataSpec RDataReads RDataFacts WireSpec FailSpec FailFacts ParseFacts SvcbParse FieldSpec FieldFacts PropName PropRecord.

(** ** C41: false for sets without a type below 256: an empty window is written *)
Theorem C41_empty_window_refuted : forall c : cfg, exists (x : nsec) (ws : list (N * bytes)),
  tset_typed c (ns_types x) /\ nsec_to_bytes c x = Ok (fqdn_to_bytes (ns_next x) ++ flat_map window_octets ws) /\
  ~ windows_minimal ws /\ forall p, ~ marked [hd (0, []) ws] p.
Proof.
  intros c. exists (mkNsec ex_www [CAA]), [(0, [0]); (1, [64])]. split.
  - split; [cbn; auto|]. repeat constructor. apply basic_exists. reflexivity.
  - split; [destruct c as [[|] [|] [|]]; reflexivity|]. split; [intros F; inversion F as [|? ? H]; subst; apply H; reflexivity|].
    intros p (x & q & [<-|[]] & (o & E & T) & _). cbn [snd] in E. destruct (N.to_nat (q / 8)) as [|[|n]]; cbn [nth_error] in E; try discriminate.
    injection E as <-. rewrite N.bits_0 in T. discriminate.
Qed.
(** A set with CDS or CDNSKEY is written but cannot be read back (see C19). *)
Theorem C41_cds_refuted : forall c : cfg, dnssec c = true -> exists (x : nsec) (bs : bytes),
  tset_typed c (ns_types x) /\ fqdn_ok (ns_next x) /\ nsec_to_bytes c x = Ok bs /\ exists e, fst (nsec_try_from c (mkbuf bs 0)) = Err e.
Proof.
  intros c D. exists (mkNsec [] [CDS]). eexists. split; [split; [cbn; auto|repeat constructor; destruct c as [[|] [|] [|]]; try discriminate D; reflexivity]|].
  split; [constructor|]. split; [destruct c as [[|] [|] [|]]; reflexivity|]. eexists. destruct c as [[|] [|] [|]]; try discriminate D; vm_compute; reflexivity.
Qed.
Theorem C41_nsec_bitmap_partial : forall (c : cfg) (x : nsec), tset_typed c (ns_types x) ->
  exists ws, nsec_to_bytes c x = Ok (fqdn_to_bytes (ns_next x) ++ flat_map window_octets ws) /\
    nsec_byte_size c x = Ok (length (fqdn_to_bytes (ns_next x) ++ flat_map window_octets ws)) /\
    windows_ok ws /\ (forall n, marked ws n <-> exists t, In t (ns_types x) /\ rtype_code t = n) /\
    (windows_minimal ws <-> exists t, In t (ns_types x) /\ rtype_code t < 256).
Proof. exact nsec_bytes. Qed.
Theorem C41_csync_bitmap_partial : forall (c : cfg) (x : csync), tset_typed c (cs_types x) ->
  exists ws, csync_to_bytes c x = Ok (be 4 (cs_serial x) ++ be 2 (cs_flags x) ++ flat_map window_octets ws) /\
    csync_byte_size c x = Ok (6 + length (flat_map window_octets ws))%nat /\
    windows_ok ws /\ (forall n, marked ws n <-> exists t, In t (cs_types x) /\ rtype_code t = n) /\
    (windows_minimal ws <-> exists t, In t (cs_types x) /\ rtype_code t < 256).
Proof. exact csync_bytes. Qed.
Theorem C41_reads_back_partial : forall (c : cfg) (ts : tset) (f : fqdn) (pre : bytes), fqdn_ok f -> tset_typed c ts -> tset_fits c ts ->
  exists bs, nsec_to_bytes c (mkNsec f ts) = Ok bs /\
    rdata_from c NSEC (mkbuf (pre ++ bs) (length pre)) = (Ok (DNSEC (mkNsec f ts)), mkbuf (pre ++ bs) (length (pre ++ bs))).
Proof.
  intros c ts f pre FO (S & E) F. destruct (nsec_bytes c (mkNsec f ts) (conj S E)) as (ws & E1 & _). eexists. split; [exact E1|].
  pose proof (reads_nsec c pre (mkNsec f ts) _ FO S F E1) as R. unfold reads in R. rewrite app_nil_r in R. cbn [rdata_from]. unfold pmap, bind. rewrite R. unfold ret.
  rewrite (app_length pre). reflexivity.
Qed.
Definition ex_types : tset := [A; MX; TXT; RRSIG; NSEC; CAA].
Example C41_ex : tset_typed ex_cfg ex_types /\ tset_fits ex_cfg ex_types /\ fqdn_ok ex_www /\
  nsec_to_bytes ex_cfg (mkNsec [] ex_types) = Ok ([0] ++ flat_map window_octets [(0, [64; 1; 128; 0; 0; 3]); (1, [64])]).
Proof.
  split; [split; [cbn; repeat split; repeat constructor|repeat constructor]|]. split; [repeat constructor; discriminate|].
  split; [repeat constructor; cbn; lia|vm_compute; reflexivity].
Qed.
Print Assumptions C41_empty_window_refuted.
Print Assumptions C41_cds_refuted.
Print Assumptions C41_nsec_bitmap_partial.
Print Assumptions C41_csync_bitmap_partial.
Print Assumptions C41_reads_back_partial.

(** ** C42: false when a bitmap of window 255 is longer than 32 octets *)
Theorem C42_overflow_refuted : forall c : cfg,
  exists d, byte_list d /\
    if ovf c then fst (types_try_from c (mkbuf d 0)) = Panic
    else fst (types_try_from c (mkbuf d 0)) = Ok [A] /\ exists ws, windows_at d 0 ws /\ ~ marked ws (rtype_code A).
Proof.
  intros c. exists (255 :: 33 :: repeat 0 32 ++ [64]). split; [repeat constructor|].
  assert (WA : windows_at (255 :: 33 :: repeat 0 32 ++ [64]) 0 [(255, repeat 0 32 ++ [64])]).
  { unfold windows_at. eapply (one_more _ 0 _ 35); [repeat split; cbn; lia|lia|apply no_entry]. }
  destruct (ovf c) eqn:O.
  - destruct c as [[|] [|] [|]]; try discriminate O; vm_compute; reflexivity.
  - split; [destruct c as [[|] [|] [|]]; try discriminate O; vm_compute; reflexivity|].
    eexists. split; [exact WA|]. intros (x & p & [<-|[]] & _ & E). cbn [fst rtype_code] in E. lia.
Qed.
(** The result of parsing any bitmap, exactly; [bit_means] is "the type with that number" for all numbers
    below 65536, i.e. whenever no bitmap is longer than the 32 octets the RFC allows. *)
Theorem C42_bitmap_iff_partial : forall (c : cfg) (d : bytes) (q : nat) (ts : tset) (b : buf), byte_list d -> (q <= length d)%nat ->
  types_try_from c (mkbuf d q) = (Ok ts, b) <->
  exists ws, windows_at d q ws /\ (forall n, marked ws n -> exists t, bit_means c n t) /\ sorted_by rtype_code ts /\
    (forall t, In t ts <-> exists n, marked ws n /\ bit_means c n t) /\ b = mkbuf d (length d).
Proof. exact types_iff. Qed.
Theorem C42_nsec_iff_partial : forall (c : cfg) (d : bytes) (q : nat) (x : nsec) (b : buf), byte_list d -> (q <= length d)%nat ->
  nsec_try_from c (mkbuf d q) = (Ok x, b) <->
  exists k ws, name_at d 191 q (ns_next x) k /\ windows_at d k ws /\ (forall n, marked ws n -> exists t, bit_means c n t) /\
    sorted_by rtype_code (ns_types x) /\ (forall t, In t (ns_types x) <-> exists n, marked ws n /\ bit_means c n t) /\ b = mkbuf d (length d).
Proof. exact nsec_iff. Qed.
Theorem C42_csync_iff_partial : forall (c : cfg) (d : bytes) (q : nat) (x : csync) (b : buf), byte_list d -> (q <= length d)%nat ->
  csync_try_from c (mkbuf d q) = (Ok x, b) <->
  exists ws, number_at d q 4 (cs_serial x) /\ u16_at d (q + 4) (cs_flags x) /\ cs_flags x < 4 /\ windows_at d (q + 6) ws /\ (forall n, marked ws n -> exists t, bit_means c n t) /\
    sorted_by rtype_code (cs_types x) /\ (forall t, In t (cs_types x) <-> exists n, marked ws n /\ bit_means c n t) /\ b = mkbuf d (length d).
Proof. exact csync_iff. Qed.
Theorem C42_total_partial : forall (c : cfg) (d : bytes) (q : nat), byte_list d -> (q <= length d)%nat ->
  fst (types_try_from c (mkbuf d q)) <> Diverge /\
  (fst (types_try_from c (mkbuf d q)) = Panic -> ovf c = true /\ bitmap_overflow d q).
Proof.
  intros c d q B L. split.
  - intros E. destruct (types_fails Loops c d q B L E) as (H & _). discriminate.
  - intros E. apply (types_fails Panics c d q B L E).
Qed.
Example C42_ex : exists d, byte_list d /\ windows_at d 0 [(0, [64; 1]); (1, [64])] /\ types_try_from ex_cfg (mkbuf d 0) = (Ok [A; MX; CAA], mkbuf d 7).
Proof.
  exists [0; 2; 64; 1; 1; 1; 64]. split; [repeat constructor|]. split; [|vm_compute; reflexivity].
  eapply (one_more _ 0 _ 4); [repeat split; cbn; lia|lia|]. eapply (one_more _ 4 _ 7); [repeat split; cbn; lia|lia|apply no_entry].
Qed.
Print Assumptions C42_overflow_refuted.
Print Assumptions C42_bitmap_iff_partial.
Print Assumptions C42_nsec_iff_partial.
Print Assumptions C42_csync_iff_partial.
Print Assumptions C42_total_partial.

(** ** C43: false: parameters of fixed size ignore the announced length, and bad lengths panic *)
Theorem C43_framing_refuted : forall c : cfg, exists (d : bytes) (x : param) (b : buf) (len : N),
  byte_list d /\ param_try_from c (mkbuf d 0) = (Ok x, b) /\ u16_at d 2 len /\ pos b <> (4 + N.to_nat len)%nat /\ (4 + N.to_nat len <= length d)%nat.
Proof.
  intros c. exists [0; 3; 0; 4; 1; 187; 0; 0], (PPort 443), (mkbuf [0; 3; 0; 4; 1; 187; 0; 0] 6), 4. split; [repeat constructor|].
  split; [destruct c as [[|] [|] [|]]; vm_compute; reflexivity|]. split; [exists 0, 4; repeat split|]. cbn. lia.
Qed.
Theorem C43_panic_refuted : forall c : cfg, ovf c = true -> exists d : bytes, byte_list d /\ fst (svcb_try_from c (mkbuf d 0)) = Panic.
Proof.
  intros c O. exists [0; 1; 0; 0; 0; 0; 1; 0; 1]. split; [repeat constructor|]. destruct c as [[|] [|] [|]]; try discriminate O; vm_compute; reflexivity.
Qed.
(** The record that any octets parse to, exactly. *)
Theorem C43_svcb_iff_partial : forall (c : cfg) (d : bytes) (q : nat) (x : svcb) (b : buf), byte_list d -> allocatable d -> (q <= length d)%nat ->
  svcb_try_from c (mkbuf d q) = (Ok x, b) <->
  exists k ps, u16_at d q (sv_prio x) /\ name_at d 191 (q + 2) (sv_target x) k /\ consecutive (param_at d) k ps (length d) /\
    sorted_by param_code (sv_params x) /\ (forall y, In y (sv_params x) <-> first_of param_code ps y) /\ b = mkbuf d (length d).
Proof. exact svcb_iff. Qed.
Theorem C43_param_iff_partial : forall (c : cfg) (d : bytes) (q : nat) (x : param) (b : buf), byte_list d -> allocatable d -> (q <= length d)%nat ->
  param_try_from c (mkbuf d q) = (Ok x, b) <-> exists e, param_at d q x e /\ (e <= length d)%nat /\ b = mkbuf d e.
Proof. exact param_iff. Qed.
Theorem C43_param_total_partial : forall (c : cfg) (d : bytes) (q : nat), byte_list d -> (q <= length d)%nat ->
  fst (param_try_from c (mkbuf d q)) <> Diverge /\
  (fst (param_try_from c (mkbuf d q)) = Panic -> ovf c = true /\ param_underflow d q).
Proof.
  intros c d q B L. split.
  - intros E. destruct (param_fails Loops c d q B L E) as (H & _). discriminate.
  - intros E. apply (param_fails Panics c d q B L E).
Qed.
(** Two "port" parameters and one "alpn": the first port is kept, the keys are sorted. *)
Definition ex_svcb_octets : bytes := [0; 1; 0; 0; 3; 0; 2; 1; 187; 0; 3; 0; 2; 0; 80; 0; 1; 0; 3; 2; 104; 50].
Example C43_ex : byte_list ex_svcb_octets /\ allocatable ex_svcb_octets /\
  fst (svcb_try_from ex_cfg0 (mkbuf ex_svcb_octets 0)) = Ok (mkSvcb 1 [] [PAlpn [[104; 50]]; PPort 443]).
Proof. split; [repeat constructor|]. split; [unfold allocatable; cbn; lia|vm_compute; reflexivity]. Qed.
Print Assumptions C43_framing_refuted.
Print Assumptions C43_panic_refuted.
Print Assumptions C43_svcb_iff_partial.
Print Assumptions C43_param_iff_partial.
Print Assumptions C43_param_total_partial.

(** ** C44 *)
Theorem C44_txt : forall (d : bytes) (q : nat) (l : list bytes) (b : buf), byte_list d -> (q <= length d)%nat ->
  txt_try_from (mkbuf d q) = (Ok l, b) ->
  exists raw, consecutive (string_at d) q raw (length d) /\ b = mkbuf d (length d) /\
    Forall2 (fun r t => is_text t /\ (is_text r -> t = r)) raw l.
Proof.
  intros d q l b B L E. apply txt_iff in E; [|assumption..]. destruct E as (raw & C & -> & ->). exists raw. split; [exact C|]. split; [reflexivity|].
  clear. induction raw as [|r raw IH]; cbn [map]; constructor; [apply lossy_spec|exact IH].
Qed.
Theorem C44_txt_accepts : forall (d : bytes) (q : nat) (raw : list bytes), byte_list d -> (q <= length d)%nat ->
  consecutive (string_at d) q raw (length d) -> exists l, txt_try_from (mkbuf d q) = (Ok l, mkbuf d (length d)) /\ length l = length raw.
Proof. intros d q raw B L C. exists (map utf8_lossy raw). split; [apply txt_iff; [assumption..|]; eauto|apply map_length]. Qed.
Theorem C44_caa : forall (d : bytes) (q : nat) (x : caa) (b : buf), byte_list d -> (q <= length d)%nat -> caa_try_from (mkbuf d q) = (Ok x, b) ->
  exists flags raw e, nth_error d q = Some flags /\ string_at d (q + 1) raw e /\ raw <> [] /\
    caa_critical x = N.testbit flags 7 /\ is_text (caa_tag x) /\ (is_text raw -> caa_tag x = raw) /\ caa_value x = skipn e d.
Proof.
  intros d q x b B L E. destruct (caa_got _ _ _ _ B L E) as (f & raw & e & H1 & H2 & H3 & H4 & H5 & H6). exists f, raw, e. rewrite H5.
  pose proof (lossy_spec raw) as (T1 & T2). auto 10.
Qed.
Theorem C44_extract_string : forall (d : bytes) (q : nat) (s : bytes) (b : buf), byte_list d ->
  extract_string (mkbuf d q) = (Ok s, b) <-> is_text s /\ exists e, string_at d q s e /\ b = mkbuf d e.
Proof. exact string_iff. Qed.
Example C44_ex : exists d, byte_list d /\ fst (txt_try_from (mkbuf d 0)) = Ok [[195; 164]; [97; 239; 191; 189]] /\ ~ is_text [97; 255].
Proof.
  exists [2; 195; 164; 2; 97; 255]. split; [repeat constructor|]. split; [vm_compute; reflexivity|]. rewrite <- utf8_valid_iff. vm_compute. discriminate.
Qed.
Print Assumptions C44_txt.
Print Assumptions C44_txt_accepts.
Print Assumptions C44_caa.
Print Assumptions C44_extract_string.

(** ** C45 *)
Theorem C45_any_order : forall (c : cfg) (pre : bytes) (m m' : opt), NoDup (map fst m) -> Forall (fun e => U16 (fst e)) m ->
  Forall (fun e => short16 (snd e)) m -> Permutation m m' ->
  exists r b, rdata_from c OPT (mkbuf (pre ++ opt_to_bytes m') (length pre)) = (Ok (DOPT r), b) /\ Permutation r m.
Proof. exact opt_any_order. Qed.
Theorem C45_last_wins : forall (d : bytes) (q : nat) (m : opt) (b : buf), byte_list d -> (q <= length d)%nat -> opt_try_from (mkbuf d q) = (Ok m, b) ->
  exists es, consecutive (option_at d) q es (length d) /\ NoDup (map fst m) /\ (forall x, In x m <-> last_of fst es x) /\ b = mkbuf d (length d).
Proof.
  intros d q m b B L E. apply opt_iff in E; [|assumption..]. destruct E as (es & C & -> & ->). exists es. split; [exact C|].
  destruct (opt_fold_last es) as (ND & H). auto.
Qed.
Theorem C45_accepts : forall (d : bytes) (q : nat) (es : list (N * bytes)), byte_list d -> (q <= length d)%nat -> consecutive (option_at d) q es (length d) ->
  exists m, opt_try_from (mkbuf d q) = (Ok m, mkbuf d (length d)) /\ forall x, In x m <-> last_of fst es x.
Proof. intros d q es B L C. eexists. split; [apply opt_iff; [assumption..|]; exists es; auto|]. apply opt_fold_last. Qed.
Example C45_ex : let d := [0; 10; 0; 1; 7; 0; 3; 0; 0; 0; 10; 0; 2; 8; 9] in byte_list d /\ fst (opt_try_from (mkbuf d 0)) = Ok [(10, [8; 9]); (3, [])] /\
  NoDup (map fst [(10, [8; 9]); (3, @nil N)]) /\ Permutation [(10, [8; 9]); (3, [])] [(3, []); (10, [8; 9])].
Proof.
  cbv zeta. split; [repeat constructor|]. split; [vm_compute; reflexivity|]. split; [|apply perm_swap].
  cbn [map fst]. constructor; [intros [H|[]]; discriminate|]. constructor; [intros []|constructor].
Qed.
Print Assumptions C45_any_order.
Print Assumptions C45_last_wins.
Print Assumptions C45_accepts.
