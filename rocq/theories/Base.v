(** * Common vocabulary of the model: bytes, machine integers, results.

    No proofs here.  All line numbers refer to /repo/src at the pinned commit. *)
From Coq Require Export List NArith ZArith Bool Arith.
Export ListNotations.
Open Scope N_scope.

(** A byte is an [N]; the values the Rust type [u8] can take are those below 256.
    A Rust [Vec<u8>], [&[u8]] or [String] is a list of bytes. *)
Definition bytes := list N.

(** A Rust [u8]/[u16]/[u32]/... value: an [N] below 2^8, 2^16, ...  [x as u8], [x as u16]:
    truncating casts. *)
Definition u8  (n : N) : N := n mod 256.
Definition u16 (n : N) : N := n mod 65536.
Definition u32 (n : N) : N := n mod 4294967296.

(** [len as u8], [len as u16] for a Vec length. *)
Definition len8  (l : nat) : N := u8  (N.of_nat l).
Definition len16 (l : nat) : N := u16 (N.of_nat l).

(** [uN::to_be_bytes]: the [k] low-order base-256 digits, most significant first. *)
Fixpoint be (k : nat) (n : N) : bytes :=
  match k with
  | O => []
  | S k' => be k' (n / 256) ++ [n mod 256]
  end.

(** [uN::from_be_bytes]. *)
Definition unbe (l : bytes) : N := fold_left (fun a b => a * 256 + b) l 0.

(** error.rs:5-79, [DnsError].  The two String payloads and the SystemTimeError payload are
    dropped (they are free text). *)
Inductive dns_error : Set :=
| InvalidClass (n : N)
| InvalidType (n : N)
| InvalidResponseCode (n : N)
| InvalidPacketData
| LengthViolation
| UnresolveableCompressionPointer
| InvalidAplFamily (n : N)
| InvalidCsyncFlag (n : N)
| InvalidSSHFPAlgorithm (n : N)
| InvalidSSHFPFingerprintType (n : N)
| InvalidIpSecKeyGatewayType (n : N)
| InvalidNaptrFlag (n : N)
| InvalidTkeyMode (n : N)
| InvalidTkeyError (n : N)
| InvalidIdentifierTypeError (n : N)
| InvalidTLSACertUsage (n : N)
| InvalidTLSASelector (n : N)
| InvalidTLSAMatchingType (n : N)
| InvalidSvcbParam (n : N)
| InvalidDigestType (n : N)
| InvalidDnsSecAlgorithm (n : N)
| InvalidDnsSecSignatureTimespan
| DnsSecVerificationError
| DnsSecSigningError.

(** Outcome of running a Rust function: it returns [Ok], it returns [Err], it panics, or it
    never returns.  Infallible Rust functions that can nevertheless panic also use [res]. *)
Inductive res (A : Type) : Type :=
| Ok (a : A)
| Err (e : dns_error)
| Panic
| Diverge.
Arguments Ok {A} a.
Arguments Err {A} e.
Arguments Panic {A}.
Arguments Diverge {A}.

Definition rbind {A B} (r : res A) (f : A -> res B) : res B :=
  match r with
  | Ok a => f a
  | Err e => Err e
  | Panic => Panic
  | Diverge => Diverge
  end.

Definition rmap {A B} (f : A -> B) (r : res A) : res B := rbind r (fun a => Ok (f a)).

Declare Scope res_scope.
Delimit Scope res_scope with res.
Notation "'let!' x := r 'in' k" := (rbind r (fun x => k))
  (at level 200, x pattern, r at level 100, k at level 200, right associativity).

(** [Option] -> [Result] with a given error ([ok_or]). *)
Definition ok_or {A} (o : option A) (e : dns_error) : res A :=
  match o with Some a => Ok a | None => Err e end.

(** Build configuration: cargo features [mdns] and [dnssec] (Cargo.toml), and whether the
    profile has integer overflow checks (debug: yes, release: no). *)
Record cfg := mkcfg { mdns : bool; dnssec : bool; ovf : bool }.

(** Checked-or-wrapping machine arithmetic: Rust [a + b], [a - b] on an unsigned type with
    [m] values ([m] = 2^16 for u16 and so on). *)
Definition uadd (c : cfg) (m a b : N) : res N :=
  if a + b <? m then Ok (a + b) else if ovf c then Panic else Ok ((a + b) mod m).
Definition usub (c : cfg) (m a b : N) : res N :=
  if b <=? a then Ok (a - b) else if ovf c then Panic else Ok ((a + m - b) mod m).

Definition M8 : N := 256.
Definition M16 : N := 65536.
Definition M64 : N := 18446744073709551616.

(** Lookup in a finite table; models a Rust [match] on integer literals. *)
Fixpoint assoc {A} (n : N) (t : list (N * A)) : option A :=
  match t with
  | [] => None
  | (k, a) :: t' => if n =? k then Some a else assoc n t'
  end.

Definition slice {A} (l : list A) (from len : nat) : list A := firstn len (skipn from l).

(** Rust [a * b] on an unsigned type with [m] values. *)
Definition umul (c : cfg) (m a b : N) : res N :=
  if a * b <? m then Ok (a * b) else if ovf c then Panic else Ok ((a * b) mod m).

Definition M32 : N := 4294967296.

(** Fold in the result monad: a Rust [for] loop whose body can fail. *)
Fixpoint rfold {A B} (f : A -> B -> res A) (l : list B) (a : A) : res A :=
  match l with
  | [] => Ok a
  | x :: l' => let! a' := f a x in rfold f l' a'
  end.

(** [BTreeSet::insert] for elements ordered by [key]: the set is the list of its elements in
    increasing key order; an element comparing equal to a present one is not inserted. *)
Fixpoint set_insert {A} (key : A -> N) (x : A) (s : list A) : list A :=
  match s with
  | [] => [x]
  | y :: s' =>
    if key x <? key y then x :: s
    else if key x =? key y then s
    else y :: set_insert key x s'
  end.
