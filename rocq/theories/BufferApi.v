(** * buffer.rs again, with the machine arithmetic of [usize].

    Buffer.v models the cursor operations with natural numbers.  Here the same functions are modelled
    with 64-bit [usize] values, [+=] checked or wrapping as the profile says, and the panics of slice
    indexing.  BufferApiFacts.v proves that both agree as long as no argument exceeds
    [isize::MAX]. *)
From Verif Require Import Base Utf8 Buffer.

(** buffer.rs:11-14. *)
Record ubuf := mkubuf { udata : bytes; upos : N }.

Definition ulen (b : ubuf) : N := N.of_nat (length (udata b)).

(** No Rust slice is longer than [isize::MAX] bytes. *)
Definition ISIZE_MAX : N := 9223372036854775807.

(** [&data[from..to]]: panics unless [from <= to <= len]. *)
Definition index_range (d : bytes) (from to : N) : res bytes :=
  if (from <=? to) && (to <=? N.of_nat (length d))
  then Ok (slice d (N.to_nat from) (N.to_nat (to - from))) else Panic.

(** buffer.rs:20-29. *)
Definition u_sub_buffer (c : cfg) (b : ubuf) (len : N) : res ubuf :=
  let! len := uadd c M64 len (upos b) in
  if ulen b <? len then Err LengthViolation
  else let! d := index_range (udata b) 0 len in Ok (mkubuf d (upos b)).

(** buffer.rs:33-35. *)
Definition u_remaining (c : cfg) (b : ubuf) : res N := usub c M64 (ulen b) (upos b).

(** buffer.rs:38-40. *)
Definition u_position (b : ubuf) : N := upos b.

(** buffer.rs:43-49. *)
Definition u_set_position (b : ubuf) (p : N) : res unit * ubuf :=
  if ulen b <? p then (Err LengthViolation, b) else (Ok tt, mkubuf (udata b) p).

(** buffer.rs:52-59. *)
Definition u_advance (c : cfg) (b : ubuf) (len : N) : res unit * ubuf :=
  match uadd c M64 len (upos b) with
  | Ok len => if ulen b <? len then (Err LengthViolation, b) else (Ok tt, mkubuf (udata b) len)
  | Err e => (Err e, b) | Panic => (Panic, b) | Diverge => (Diverge, b)
  end.

(** buffer.rs:63-68. *)
Definition u_peek_bytes (c : cfg) (b : ubuf) (len : N) : res bytes :=
  let! e := uadd c M64 (upos b) len in
  if ulen b <? e then Err LengthViolation else index_range (udata b) (upos b) e.

(** buffer.rs:72-79.  The position has already moved when the slice is taken. *)
Definition u_extract_bytes (c : cfg) (b : ubuf) (len : N) : res bytes * ubuf :=
  match uadd c M64 (upos b) len with
  | Ok e =>
    if ulen b <? e then (Err LengthViolation, b)
    else (let! from := usub c M64 e len in index_range (udata b) from e, mkubuf (udata b) e)
  | Err e => (Err e, b) | Panic => (Panic, b) | Diverge => (Diverge, b)
  end.

(** buffer.rs:83-97. *)
Definition u_int (c : cfg) (k : N) (b : ubuf) : res N * ubuf :=
  let '(r, b') := u_extract_bytes c b k in (rmap unbe r, b').

(** buffer.rs:112-128: [extract_character_string] and [extract_string]. *)
Definition u_char_string (c : cfg) (b : ubuf) : res bytes * ubuf :=
  match u_int c 1 b with
  | (Ok n, b') => u_extract_bytes c b' n
  | (Err e, b') => (Err e, b') | (Panic, b') => (Panic, b') | (Diverge, b') => (Diverge, b')
  end.
Definition u_string (c : cfg) (b : ubuf) : res bytes * ubuf :=
  let '(r, b') := u_char_string c b in
  (let! s := r in if utf8_valid s then Ok s else Err LengthViolation, b').

(** buffer.rs:134-175: positions inside [extract_fqdn] never exceed the buffer length by more than
    256, so its [usize] additions cannot overflow; the function of Buffer.v is used as it is. *)
Definition u_fqdn (b : ubuf) : res (list bytes) * ubuf :=
  let '(r, b') := extract_fqdn (mkbuf (udata b) (N.to_nat (upos b))) in
  (r, mkubuf (data b') (N.of_nat (pos b'))).

(** ** A user's calls *)
Inductive call :=
| Advance (n : N) | SetPosition (p : N) | Peek (n : N) | ExtractBytes (n : N)
| ExtractU8 | ExtractU16 | ExtractU32 | ExtractCharacterString | ExtractString | ExtractFqdn.

(** The outcome of a call, with its value forgotten, and the buffer afterwards. *)
Definition do_call (c : cfg) (x : call) (b : ubuf) : res unit * ubuf :=
  let forget {A} (r : res A * ubuf) := (rmap (fun _ => tt) (fst r), snd r) in
  match x with
  | Advance n => u_advance c b n
  | SetPosition p => u_set_position b p
  | Peek n => (rmap (fun _ => tt) (u_peek_bytes c b n), b)
  | ExtractBytes n => forget (u_extract_bytes c b n)
  | ExtractU8 => forget (u_int c 1 b)
  | ExtractU16 => forget (u_int c 2 b)
  | ExtractU32 => forget (u_int c 4 b)
  | ExtractCharacterString => forget (u_char_string c b)
  | ExtractString => forget (u_string c b)
  | ExtractFqdn => forget (u_fqdn b)
  end.

(** A history of calls; it goes on after errors and ends at a panic or an endless loop. *)
Fixpoint do_calls (c : cfg) (xs : list call) (b : ubuf) : option ubuf :=
  match xs with
  | [] => Some b
  | x :: xs' =>
    match do_call c x b with
    | (Ok _, b') | (Err _, b') => do_calls c xs' b'
    | _ => None
    end
  end.
