(** * Specification: what a message may not contain to be laid out as the RFCs say.

    Each line is one liberty that parsing tolerates (see C78), said about the raw octets.  The places of
    names are those of [FailSpec.name_place]. *)
From Verif Require Import Base Fqdn Header Types RDataBasic Bitmap Svcb RDataSec RData Packet BaseFacts Utf8Facts NameSpec
  CodeSpec HeaderSpec WireSpec FailSpec FieldSpec LayoutSpec ReadSpec.

(** A parameter that ends where its length says, with its keys, if it is a list of keys, in increasing order. *)
Definition param_strict (w : bytes) (p : nat) (x : param) (e : nat) : Prop :=
  param_at w p x e /\ u16_at w (p + 2) (N.of_nat (e - (p + 4))) /\
  match x with PMandatory _ => forall raw, consecutive (key_at w) (p + 4) raw e -> sorted_by pkey_code raw | _ => True end.
Definition windows_strict (ws : list (N * bytes)) : Prop := windows_ok ws /\ windows_minimal ws.

(** The data [x] of a record, from [q] to the end of [w]. *)
Definition data_strict (c : cfg) (w : bytes) (q : nat) (x : rdata) : Prop :=
  (* nothing is left over behind the last field *)
  (forall m, laid (pieces w c x) q m -> m = length w) /\
  (* labels of at most 63 octets; a pointer leads to a prior occurrence of a name *)
  (forall p f e, name_place w (rdata_type x) q p -> name_at w 191 p f e -> rfc_name_at w p f e) /\
  match x with
  (* strings are UTF-8 *)
  | DTXT _ => forall raw, consecutive (string_at w) q raw (length w) -> Forall is_text raw
  (* all flags are known *)
  | DNAPTR _ => forall s e, string_at w (q + 4) s e -> Forall (fun o => exists f, In (f, o) iana_nflag) s
  (* no option occurs twice *)
  | DOPT _ => forall all, consecutive (option_at w) q all (length w) -> NoDup (map fst all)
  (* AFDLENGTH is even, not more than the address has octets, and the last octet is not zero *)
  | DAPL x => forall o, nth_error w (q + 3) = Some o ->
      (o mod 128) mod 2 = 0 /\ o mod 128 <= N.of_nat (afd_width (apl_afd x)) /\ (o mod 128 <> 0 -> nth_error w (q + 3 + N.to_nat (o mod 128)) <> Some 0)
  (* the number 5 is not SHA-512, RSA and DSA have each other's numbers, RFC 4255 has no length (C50, C65) *)
  | DDS x | DCDS x => ds_dt x <> DtSHA512
  | DSSHFP _ => False
  | DIPSECKEY x => (ip_alg x = AlgReserved \/ ip_alg x = AlgECDSA) /\ ip_gw x <> GwNone
  | DHIP x => hip_alg x = AlgReserved \/ hip_alg x = AlgECDSA
  (* windows in increasing order, of one to 32 octets, without trailing zeros *)
  | DNSEC _ => forall f k ws, name_at w 191 q f k -> windows_at w k ws -> windows_strict ws
  | DCSYNC _ => forall ws, windows_at w (q + 6) ws -> windows_strict ws
  (* no reserved flags *)
  | DDNSKEY _ | DCDNSKEY _ => forall f, u16_at w q f -> In f [0; 1; 256; 257]
  | DCAA _ => (forall o, nth_error w q = Some o -> In o [0; 128]) /\ (forall s e, string_at w (q + 1) s e -> is_text s)
  (* parameters in increasing order of their keys *)
  | DSVCB _ => forall f k all, name_at w 191 (q + 2) f k -> consecutive (param_at w) k all (length w) ->
      sorted_by param_code all /\ consecutive (param_strict w) k all (length w)
  | _ => True
  end.

(** Without mDNS the top bit of a class is not a flag. *)
Definition question_strict (c : cfg) (d : bytes) (p : nat) (q : question) (e : nat) : Prop :=
  question_at c d p q e /\
  forall k v, name_at d 191 p (q_name q) k -> u16_at d (k + 2) v -> rfc_name_at d p (q_name q) k /\ (mdns c = false -> v < 32768).
Definition record_strict (c : cfg) (d : bytes) (p : nat) (r : rr) (e : nat) : Prop :=
  record_on_wire c d p r e /\
  forall k v, name_at d 191 p (rr_name r) k -> u16_at d (k + 2) v -> rfc_name_at d p (rr_name r) k /\ (mdns c = false -> v < 32768) /\
    data_strict c (firstn e d) (k + 10) (rr_data r).
(** The entries of the four sections, one behind the other. *)
Definition packet_strict (c : cfg) (d : bytes) (p : packet) : Prop :=
  exists e1 e2 e3 e,
    consecutive (question_strict c d) 12 (p_questions p) e1 /\ consecutive (record_strict c d) e1 (p_answers p) e2 /\
    consecutive (record_strict c d) e2 (p_authorities p) e3 /\ consecutive (record_strict c d) e3 (p_additionals p) e.
