(** * Specification: type bitmaps, SVCB parameters, texts and EDNS options inside record data. *)
From Coq Require Import Sorting.Sorted.
From Verif Require Import Base BaseFacts Types RDataBasic Bitmap Svcb CodeSpec NameSpec WireSpec FailSpec.

(** ** Type bitmaps (RFC 4034, 4.1.2) *)

(** A window: its number and its bitmap. *)
Definition window_octets (x : N * bytes) : bytes := fst x :: N.of_nat (length (snd x)) :: snd x.
(** Bit [p] of a bitmap, counted from the left. *)
Definition bit_set (bm : bytes) (p : N) : Prop :=
  exists o, nth_error bm (N.to_nat (p / 8)) = Some o /\ N.testbit o (7 - p mod 8) = true.
(** The number [n] is marked in the windows [ws]. *)
Definition marked (ws : list (N * bytes)) (n : N) : Prop :=
  exists x p, In x ws /\ bit_set (snd x) p /\ n = 256 * fst x + p.
(** Window numbers increase strictly; one to 32 octets each. *)
Definition windows_ok (ws : list (N * bytes)) : Prop :=
  StronglySorted N.lt (map fst ws) /\ Forall (fun x => fst x < 256 /\ (1 <= length (snd x) <= 32)%nat /\ byte_list (snd x)) ws.
(** No window without types, no trailing zero octets. *)
Definition windows_minimal (ws : list (N * bytes)) : Prop := Forall (fun x => last (snd x) 0 <> 0) ws.
(** The windows stand one after the other from [q] to the end of the data. *)
Definition windows_at (d : bytes) (q : nat) (ws : list (N * bytes)) : Prop := consecutive (window_at d) q ws (length d).

(** ** Sets and maps built from a sequence *)

(** [x] occurs in [l] and nothing before it has the same key: the first one wins. *)
Definition first_of {X} (key : X -> N) (l : list X) (x : X) : Prop :=
  exists before after, l = before ++ x :: after /\ Forall (fun y => key y <> key x) before.
(** The last one wins. *)
Definition last_of {X} (key : X -> N) (l : list X) (x : X) : Prop :=
  exists before after, l = before ++ x :: after /\ Forall (fun y => key y <> key x) after.

(** ** EDNS options (RFC 6891, 6.1.2): code, length, data *)
Definition option_at (d : bytes) (p : nat) (x : N * bytes) (e : nat) : Prop :=
  u16_at d p (fst x) /\ u16_at d (p + 2) (N.of_nat (length (snd x))) /\ (p + 4 + length (snd x) <= length d)%nat /\
  slice d (p + 4) (length (snd x)) = snd x /\ e = (p + 4 + length (snd x))%nat.

(** ** SVCB parameters (RFC 9460, 2.2): key, length, value *)
Definition param_framed (d : bytes) (p : nat) (key len : N) (e : nat) : Prop :=
  u16_at d p key /\ u16_at d (p + 2) len /\ e = (p + 4 + N.to_nat len)%nat /\ (e <= length d)%nat.

(** A key list entry of the "mandatory" parameter. *)
Definition key_at (d : bytes) (p : nat) (k : pkey) (e : nat) : Prop :=
  u16_at d p (pkey_code k) /\ pkey_documented k /\ e = (p + 2)%nat.
(** The number formed by the [n] octets from [p] on. *)
Definition number_at (d : bytes) (p n : nat) (v : N) : Prop :=
  (p + n <= length d)%nat /\ v = fold_left (fun a o => a * 256 + o) (slice d p n) 0.
(** What the parser takes a parameter at [p] to be, [e] where it ends.  The keys "no-default-alpn" (2),
    "port" (3), "ipv4hint" (4), "ipv6hint" (6) and 65535 have values of a fixed size, whatever the
    announced length; the others have the announced length. *)
Definition param_at (d : bytes) (p : nat) (x : param) (e : nat) : Prop :=
  u16_at d p (param_code x) /\ pkey_documented (param_key x) /\
  exists len, u16_at d (p + 2) len /\
    match x with
    | PMandatory ks => e = (p + 4 + N.to_nat len)%nat /\
        exists raw, consecutive (key_at d) (p + 4) raw e /\ sorted_by pkey_code ks /\ forall k, In k ks <-> In k raw
    | PAlpn ids => e = (p + 4 + N.to_nat len)%nat /\ consecutive (string_at d) (p + 4) ids e
    | PEch v | PPrivate _ v => e = (p + 4 + N.to_nat len)%nat /\ (e <= length d)%nat /\ v = slice d (p + 4) (N.to_nat len)
    | PNoDefaultAlpn | PInvalid => e = (p + 4)%nat
    | PPort n => e = (p + 6)%nat /\ number_at d (p + 4) 2 n
    | PIpV4Hint a => e = (p + 8)%nat /\ number_at d (p + 4) 4 a
    | PIpV6Hint a => e = (p + 20)%nat /\ number_at d (p + 4) 16 a
    end.

(** The type meant by the number [n] of a set bit: numbers that do not fit 16 bits are rejected by a
    debug build (with a panic) and reduced modulo 65536 by a release build. *)
Definition bit_means (c : cfg) (n : N) (t : rtype) : Prop :=
  decodable c t /\ rtype_code t = n mod 65536 /\ (n < 65536 \/ ovf c = false).
