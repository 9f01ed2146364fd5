(** * Model of buffer.rs: [DnsBuffer], the cursor all parsers run on. *)
From Verif Require Import Base Utf8.

(** buffer.rs:11-14, [DnsBuffer { data, pos }]. *)
Record buf := mkbuf { data : bytes; pos : nat }.

(** A parser: a Rust function taking [&mut DnsBuffer] and returning [Result<A, DnsError>].
    The buffer after the call is returned in every case (after a panic it is meaningless). *)
Definition P (A : Type) := buf -> res A * buf.

Definition ret {A} (a : A) : P A := fun b => (Ok a, b).
Definition fail {A} (e : dns_error) : P A := fun b => (Err e, b).
Definition bind {A B} (p : P A) (f : A -> P B) : P B := fun b =>
  match p b with
  | (Ok a, b') => f a b'
  | (Err e, b') => (Err e, b')
  | (Panic, b') => (Panic, b')
  | (Diverge, b') => (Diverge, b')
  end.
Definition lift {A} (r : res A) : P A := fun b => (r, b).
Notation "x <- p ;; q" := (bind p (fun x => q))
  (at level 61, p at next level, right associativity).
Notation "' x <- p ;; q" := (bind p (fun x => q))
  (at level 61, x pattern, p at next level, right associativity).

(** buffer.rs:183-187, [From<&[u8]> for DnsBuffer]. *)
Definition buf_from (d : bytes) : buf := mkbuf d 0.

(** buffer.rs:20-29.  [usize] overflow of [len += self.pos] is treated in BufferApi.v; every
    caller inside the library passes at most 65535 or [remaining()]. *)
Definition sub_buffer (b : buf) (len : nat) : res buf :=
  if (length (data b) <? pos b + len)%nat then Err LengthViolation
  else Ok (mkbuf (firstn (pos b + len) (data b)) (pos b)).

(** buffer.rs:33-35.  [usize] underflow when [pos > data.len()] is excluded by the invariant
    proved in BufferFacts ([pos <= length data] is preserved by every operation). *)
Definition remaining (b : buf) : nat := (length (data b) - pos b)%nat.

(** buffer.rs:43-49. *)
Definition set_position (p : nat) : P unit := fun b =>
  if (length (data b) <? p)%nat then (Err LengthViolation, b)
  else (Ok tt, mkbuf (data b) p).

(** buffer.rs:52-59. *)
Definition advance (len : nat) : P unit := fun b =>
  if (length (data b) <? pos b + len)%nat then (Err LengthViolation, b)
  else (Ok tt, mkbuf (data b) (pos b + len)).

(** buffer.rs:63-68. *)
Definition peek_bytes (len : nat) : P bytes := fun b =>
  if (length (data b) <? pos b + len)%nat then (Err LengthViolation, b)
  else (Ok (slice (data b) (pos b) len), b).

(** buffer.rs:72-79. *)
Definition extract_bytes (len : nat) : P bytes := fun b =>
  if (length (data b) <? pos b + len)%nat then (Err LengthViolation, b)
  else (Ok (slice (data b) (pos b) len), mkbuf (data b) (pos b + len)).

(** buffer.rs:83-97.  The [try_into()?] to a fixed-size array cannot fail: the slice has exactly
    the requested length. *)
Definition extract_u8 : P N := bs <- extract_bytes 1 ;; ret (unbe bs).
Definition extract_u16 : P N := bs <- extract_bytes 2 ;; ret (unbe bs).
Definition extract_u32 : P N := bs <- extract_bytes 4 ;; ret (unbe bs).

(** buffer.rs:101-106. *)
Definition extract_u16_as {A} (f : N -> res A) : P A := n <- extract_u16 ;; lift (f n).

(** buffer.rs:112-117. *)
Definition extract_character_string : P bytes :=
  n <- extract_u8 ;; extract_bytes (N.to_nat n).

(** buffer.rs:124-128. *)
Definition extract_string : P bytes :=
  s <- extract_character_string ;;
  if utf8_valid s then ret s else fail LengthViolation.

(** lib.rs:13-14. *)
Definition COMPRESSION_MASK : N := 192.
Definition COMPRESSION_MASK_U16 : N := 49152.

(** buffer.rs:134-175, the [loop] of [extract_fqdn].  [acc] is [data], [org] is [org_pos], [p] is
    [self.pos].  Returns the outcome and the final position.  [fuel] bounds the number of loop
    iterations; running out of it is reported as [Diverge]. *)
Fixpoint fqdn_loop (d : bytes) (fuel : nat) (acc : list bytes) (org : option nat) (p : nat)
  : res (list bytes) * nat :=
  match fuel with
  | O => (Diverge, p)
  | S f =>
    match nth_error d p with
    | None => (Panic, p)                              (* self.data[self.pos], l.140 *)
    | Some len =>
      if N.land len COMPRESSION_MASK =? COMPRESSION_MASK then       (* l.141 *)
        let org' := match org with None => Some (p + 1)%nat | Some o => Some o end in
        match peek_bytes 2 (mkbuf d p) with                          (* l.149-150 *)
        | (Ok bs, _) =>
          let t := N.to_nat (N.land (unbe bs) (65535 - COMPRESSION_MASK_U16)) in
          let o := match org' with Some o => o | None => O end in    (* unwrap_or(0) *)
          if (o <=? t)%nat then (Err UnresolveableCompressionPointer, o)  (* l.152-155 *)
          else fqdn_loop d f acc org' t
        | (Err e, _) => (Err e, p)
        | (Panic, _) => (Panic, p)
        | (Diverge, _) => (Diverge, p)
        end
      else if (length d <? p + N.to_nat len)%nat then (Err LengthViolation, p)   (* l.156-158 *)
      else if len =? 0 then                                          (* l.159-167 *)
        (Ok acc, (match org with Some o => o | None => p end + 1)%nat)
      else                                                           (* l.168-173 *)
        if (length d <? p + 1 + N.to_nat len)%nat then (Panic, p)     (* slice out of range *)
        else fqdn_loop d f (acc ++ [slice d (p + 1) (N.to_nat len)]) org (p + 1 + N.to_nat len)
    end
  end.

(** Fuel that is always enough: proved in FqdnLoop.v (if the loop has not returned after this many
    iterations it never returns). *)
Definition fqdn_fuel (d : bytes) : nat := (2 * length d + 3)%nat.

(** buffer.rs:134-175, [DnsBuffer::extract_fqdn]. *)
Definition extract_fqdn : P (list bytes) := fun b =>
  let '(r, p) := fqdn_loop (data b) (fqdn_fuel (data b)) [] None (pos b) in
  (r, mkbuf (data b) p).

(** [while buffer.remaining() > 0 { acc = step(acc)? }].  The fuel is the number of remaining bytes:
    every step used in the library consumes at least one byte when it succeeds (proved), so
    [Diverge] is never returned because of it. *)
Fixpoint while_remaining {A} (fuel : nat) (step : A -> P A) (acc : A) : P A := fun b =>
  if (remaining b =? 0)%nat then (Ok acc, b)
  else match fuel with
       | O => (Diverge, b)
       | S f => (a <- step acc ;; while_remaining f step a) b
       end.
Definition loop_remaining {A} (step : A -> P A) (acc : A) : P A := fun b =>
  while_remaining (remaining b) step acc b.

(** [buffer.extract_bytes(buffer.remaining())?.to_vec()]. *)
Definition extract_rest : P bytes := fun b => extract_bytes (remaining b) b.

(** [for _ in 0..n { v.push(parse(buffer)?) }]. *)
Fixpoint repeatP {A} (n : nat) (p : P A) : P (list A) :=
  match n with
  | O => ret []
  | S n' => x <- p ;; xs <- repeatP n' p ;; ret (x :: xs)
  end.

(** [buffer.extract_u8()?.try_into()?]. *)
Definition extract_u8_as {A} (f : N -> res A) : P A := n <- extract_u8 ;; lift (f n).
