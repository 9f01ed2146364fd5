(** * Properties C19 - C21: numberings *)
From Verif Require Import Base Buffer BaseFacts Types Header RDataBasic Bitmap Svcb RDataSec CodeSpec CodeFacts.
From Coq Require Import Lia.

(** ** C19: record types and query types *)
(** The numbers written are the IANA ones, all different. *)
Theorem C19_iana : (forall t, In (t, rtype_code t) iana_types) /\ (forall q, In (q, qtype_code q) iana_qtypes) /\
  NoDup (map fst iana_types) /\ NoDup (map snd iana_types) /\
  NoDup (map fst iana_qtypes) /\ NoDup (map snd iana_qtypes).
Proof.
  split; [exact iana_types_code|]. split; [exact iana_qtypes_code|].
  repeat split; vm_compute; repeat (constructor; [cbn; intuition discriminate|]); constructor.
Qed.
(** In every build, on every number and every type except CDS and CDNSKEY. *)
Theorem C19_record_types_partial : forall c : cfg,
  faithful (decodable c) 65536 rtype_code (rtype_try_from c) InvalidType.
Proof. exact rtype_faithful. Qed.
Theorem C19_query_types_partial : forall c : cfg,
  faithful (qdecodable c) 65536 qtype_code (qtype_try_from c) InvalidType.
Proof. exact qtype_faithful. Qed.
(** The two exceptions: they exist in a build with [dnssec], can be written, and are never read. *)
Theorem C19_unreadable_refuted : forall c : cfg, dnssec c = true -> forall t, t = CDS \/ t = CDNSKEY ->
  rtype_exists c t = true /\ rtype_try_from c (rtype_code t) = Err (InvalidType (rtype_code t)) /\
  qtype_try_from c (qtype_code (QT t)) = Err (InvalidType (rtype_code t)).
Proof.
  intros c D t T. unfold rtype_exists, rtype_try_from, qtype_try_from, qtype_table, rtype_table. rewrite D.
  destruct T as [-> | ->]; repeat split.
Qed.
Example C19_ex : decodable (mkcfg false true true) RRSIG /\ ~ decodable (mkcfg false false true) RRSIG /\
  rtype_try_from (mkcfg false true true) 46 = Ok RRSIG /\
  rtype_try_from (mkcfg false false true) 46 = Err (InvalidType 46).
Proof. repeat split; try discriminate. intros [H _]. discriminate H. Qed.
Print Assumptions C19_iana.
Print Assumptions C19_record_types_partial.
Print Assumptions C19_query_types_partial.
Print Assumptions C19_unreadable_refuted.

(** ** C20: classes *)
Theorem C20_bit15_ignored : forall n, qclass_try_from n = qclass_try_from (n mod 32768) /\
                                      rclass_from n = rclass_from (n mod 32768).
Proof. intros n. split; [apply qclass_low|apply rclass_low]. Qed.
Theorem C20_query_classes : (forall q, In (q, qclass_code q) iana_qclasses) /\
  (forall q, qclass_try_from (qclass_code q) = Ok q) /\
  (forall n q, qclass_try_from n = Ok q -> qclass_code q = n mod 32768) /\
  (forall n, (forall q, qclass_code q <> n mod 32768) -> qclass_try_from n = Err (InvalidClass (n mod 32768))).
Proof.
  split; [intros q; destruct q; cbn; tauto|].
  split; [exact qclass_roundtrip|]. split; [exact qclass_back|exact qclass_reject].
Qed.
(** Every number decodes; writing it back only clears bit 15; a class comes back as itself exactly
    when it is below 0x8000 and not an alias of IN, CS, CH or HS. *)
Theorem C20_record_classes : (forall n, rclass_code (rclass_from n) = n mod 32768) /\
  (forall k, rclass_from (rclass_code k) = k <-> rclass_plain k) /\
  (forall k k', rclass_plain k -> rclass_plain k' -> rclass_code k = rclass_code k' -> k = k').
Proof. split; [exact rclass_back|]. split; [exact rclass_roundtrip|exact rclass_code_inj]. Qed.
Example C20_ex : rclass_from 33281 = UdpPayloadSize 513 /\ rclass_plain (UdpPayloadSize 513) /\
  qclass_try_from 32769 = Ok QIN /\ rclass_from (rclass_code (UdpPayloadSize 2)) = CCS.
Proof. repeat split; try reflexivity; lia. Qed.
Print Assumptions C20_bit15_ignored.
Print Assumptions C20_query_classes.
Print Assumptions C20_record_classes.

(** ** C21: the other enumerations *)
Theorem C21_enumerations :
  faithful any 256 alg_code alg_try_from InvalidSSHFPAlgorithm /\
  faithful any 256 fptype_code fptype_try_from InvalidSSHFPFingerprintType /\
  faithful any 256 cert_usage_code cert_usage_try_from InvalidTLSACertUsage /\
  faithful any 256 selector_code selector_try_from InvalidSSHFPAlgorithm /\
  faithful any 256 matching_code matching_try_from InvalidSSHFPAlgorithm /\
  faithful any 65536 tserr_code tserr_try_from InvalidTkeyError /\
  faithful any 65536 idtype_code idtype_try_from InvalidIdentifierTypeError /\
  faithful any 256 nflag_code nflag_try_from InvalidNaptrFlag /\
  faithful any 256 salg_code salg_try_from InvalidDnsSecAlgorithm /\
  faithful any 256 digest_type_code digest_type_try_from InvalidDigestType /\
  faithful any 16 response_code_code response_code_try_from InvalidResponseCode.
Proof.
  exact (conj alg_faithful (conj fptype_faithful (conj cert_usage_faithful (conj selector_faithful
        (conj matching_faithful (conj tserr_faithful (conj idtype_faithful (conj nflag_faithful
        (conj salg_faithful (conj digest_type_faithful rcode_faithful)))))))))).
Qed.
(** Enumerations with a number inside: faithful on the documented ranges. *)
Theorem C21_payload_enumerations_partial :
  faithful tkmode_documented 65536 tkmode_code tkmode_try_from InvalidTkeyMode /\
  faithful tkerr_documented 65536 tkerr_code tkerr_try_from InvalidTkeyError /\
  faithful pkey_documented 65536 pkey_code pkey_try_from InvalidSvcbParam.
Proof. exact (conj tkmode_faithful (conj tkerr_faithful pkey_faithful)). Qed.
(** Outside them two values share a code. *)
Theorem C21_alias_refuted :
  (exists m, m <> TmServer /\ tkmode_code m = tkmode_code TmServer /\ tkmode_try_from (tkmode_code m) <> Ok m) /\
  (exists e, e <> TeBadSig /\ tkerr_code e = tkerr_code TeBadSig /\ tkerr_try_from (tkerr_code e) <> Ok e) /\
  (exists k, k <> KPort /\ pkey_code k = pkey_code KPort /\ pkey_try_from (pkey_code k) <> Ok k).
Proof.
  split; [exists (TmAvailable 1)|split; [exists (TeRcode 16)|exists (KPrivate 3)]]; repeat split; discriminate.
Qed.
(** CSYNC flags: the numbers below 4, whose two bits are set and read independently. *)
Theorem C21_csync_flags :
  (forall n, n < 4 -> csync_flags_try_from n = Ok n) /\
  (forall n f, n < 65536 -> csync_flags_try_from n = Ok f -> f = n /\ f < 4) /\
  (forall n, n < 65536 -> 4 <= n -> csync_flags_try_from n = Err (InvalidCsyncFlag n)) /\
  (forall imm soa, csync_immediate (csync_of imm soa) = imm /\ csync_soa_minimum (csync_of imm soa) = soa /\
     (forall b, csync_set_immediate (csync_of imm soa) b = csync_of b soa) /\
     (forall b, csync_set_soa_minimum (csync_of imm soa) b = csync_of imm b)) /\
  (forall n, n < 4 -> exists imm soa, n = csync_of imm soa) /\
  csync_immediate csync_flags_new = false /\ csync_soa_minimum csync_flags_new = false /\ csync_flags_new < 4.
Proof.
  destruct csync_faithful as (a & b & d).
  exact (conj a (conj b (conj d (conj csync_view (conj csync_all (conj eq_refl (conj eq_refl eq_refl))))))).
Qed.
(** APL: the family number on the wire decides the kind of address; only 1 and 2 are accepted. *)
Theorem C21_apl_family : forall (b : buf) (x : apl) (b' : buf), apl_try_from b = (Ok x, b') ->
  unbe (slice (data b) (pos b) 2) = afd_family (apl_afd x) /\
  (afd_family (apl_afd x) = 1 \/ afd_family (apl_afd x) = 2).
Proof.
  intros b x b' E. split; [exact (apl_family b x b' E)|]. destruct (apl_afd x); [left|right]; reflexivity.
Qed.
(** Opcodes are never rejected: unknown ones all become [Reserved], whose own code is 3. *)
Theorem C21_opcode_refuted : exists n, n < 16 /\ opcode_code (opcode_from n) <> n.
Proof. exists 5. split; [reflexivity|discriminate]. Qed.
Theorem C21_opcode_partial : (forall o, opcode_from (opcode_code o) = o) /\
  (forall n, n < 4 -> opcode_code (opcode_from n) = n) /\ (forall n, 4 <= n -> opcode_from n = OpReserved).
Proof.
  split; [intros o; destruct o; reflexivity|]. split.
  - intros n H. assert (C : n = 0 \/ n = 1 \/ n = 2 \/ n = 3) by lia.
    destruct C as [->|[->|[->| ->]]]; reflexivity.
  - intros n H. unfold opcode_from. destruct n as [|[p|p|]]; try lia; try reflexivity;
      destruct p; try lia; reflexivity.
Qed.
(** The NAPTR parser does not reject unknown flags, it drops them. *)
Theorem C21_naptr_unknown_flag_refuted : exists s, nflag_try_from (hd 0 s) = Err (InvalidNaptrFlag (hd 0 s)) /\
  fst (naptr_try_from (buf_from ([0;1;0;2] ++ char_string s ++ [0] ++ [0] ++ [0]))) =
  Ok (mkNaptr 1 2 (nflags_of (tl s)) [] [] []).
Proof. exists [88; 85]. split; reflexivity. Qed.
Example C21_ex : salg_try_from 13 = Ok ECDSA_P256 /\ salg_try_from 12 = Err (InvalidDnsSecAlgorithm 12) /\
  tkmode_documented (TmAvailable 65534) /\ pkey_try_from 65280 = Ok (KPrivate 65280) /\
  pkey_try_from 7 = Err (InvalidSvcbParam 7).
Proof. repeat split; discriminate. Qed.
Print Assumptions C21_enumerations.
Print Assumptions C21_payload_enumerations_partial.
Print Assumptions C21_alias_refuted.
Print Assumptions C21_csync_flags.
Print Assumptions C21_apl_family.
Print Assumptions C21_opcode_refuted.
Print Assumptions C21_opcode_partial.
Print Assumptions C21_naptr_unknown_flag_refuted.

(** ** C50: registered numbers *)
Theorem C50_registered_partial :
  Forall (fun p => cert_usage_code (fst p) = snd p) iana_cert_usage /\
  Forall (fun p => selector_code (fst p) = snd p) iana_selector /\
  Forall (fun p => matching_code (fst p) = snd p) iana_matching /\
  Forall (fun p => tserr_code (fst p) = snd p) iana_tserr /\
  Forall (fun p => tkmode_code (fst p) = snd p) iana_tkmode /\
  Forall (fun p => tkerr_code (fst p) = snd p) iana_tkerr /\
  Forall (fun p => idtype_code (fst p) = snd p) iana_idtype /\
  Forall (fun p => pkey_code (fst p) = snd p) iana_pkey /\
  Forall (fun p => nflag_code (fst p) = snd p) iana_nflag /\
  Forall (fun p => salg_code (fst p) = snd p) iana_salg /\
  Forall (fun p => digest_type_code (fst p) = snd p) iana_digest_type /\
  Forall (fun p => fptype_code (fst p) = snd p) iana_fptype /\
  Forall (fun p => response_code_code (fst p) = snd p) iana_rcode /\
  Forall (fun p => opcode_code (fst p) = snd p) iana_opcode.
Proof. repeat split; repeat constructor. Qed.
(** The tables leave out no value of their enumeration (numeric payloads and the two values that
    have no registered number aside). *)
Theorem C50_tables_cover :
  (forall x, In x (map fst iana_cert_usage)) /\ (forall x, In x (map fst iana_selector)) /\
  (forall x, In x (map fst iana_matching)) /\ (forall x, In x (map fst iana_tserr)) /\
  (forall x, In x (map fst iana_tkmode) \/ exists n, x = TmAvailable n) /\
  (forall x, In x (map fst iana_tkerr) \/ exists n, x = TeRcode n) /\
  (forall x, In x (map fst iana_idtype)) /\
  (forall x, In x (map fst iana_pkey) \/ exists n, x = KPrivate n) /\
  (forall x, In x (map fst iana_nflag)) /\ (forall x, In x (map fst iana_salg)) /\
  (forall x, In x (map fst iana_digest_type) \/ x = DtSHA512) /\
  (forall x, In x (map fst iana_fptype)) /\ (forall x, In x (map fst iana_rcode)) /\
  (forall x, In x (map fst iana_opcode) \/ x = OpReserved).
Proof. repeat split; intros x; destruct x; cbn; eauto 20. Qed.
(** SSHFP: Ed448 is written as 5 instead of 6 and a registered Ed448 fingerprint is rejected; the
    others agree.  IPSECKEY and HIP: RSA and DSA are exchanged. *)
Theorem C50_sshfp_ed448_refuted : exists a n, In (a, n) iana_sshfp_alg /\ alg_code a <> n /\
  alg_try_from n = Err (InvalidSSHFPAlgorithm n).
Proof. exists AlgEd448, 6. split; [cbn; tauto|split; [discriminate|reflexivity]]. Qed.
Theorem C50_sshfp_partial : forall a n, In (a, n) iana_sshfp_alg -> a <> AlgEd448 -> alg_code a = n.
Proof. intros a n H. cbn in H. repeat (destruct H as [H|H]; [injection H as <- <-; intros; reflexivity || congruence|]). destruct H. Qed.
Theorem C50_ipseckey_refuted : exists a b n, In (a, n) iana_ipseckey_alg /\ a <> b /\ alg_code b = n /\
  alg_try_from n = Ok b.
Proof. exists AlgDSA, AlgRSA, 1. split; [cbn; tauto|repeat split; discriminate]. Qed.
Example C50_ex : In (ECDSA_P256, 13) iana_salg /\ salg_code ECDSA_P256 = 13.
Proof. split; [cbn; tauto|reflexivity]. Qed.
Print Assumptions C50_registered_partial.
Print Assumptions C50_tables_cover.
Print Assumptions C50_sshfp_ed448_refuted.
Print Assumptions C50_sshfp_partial.
Print Assumptions C50_ipseckey_refuted.
