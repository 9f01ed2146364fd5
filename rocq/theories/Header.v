(** * Model of header.rs. *)
From Verif Require Import Base Buffer.

(** header.rs:220-240, [FlagBitfield]: a modular_bitfield struct of 16 bits stored as two bytes,
    fields packed from the least significant bit of the first byte upwards.  Modelled as the
    16-bit value (first byte) + 256 * (second byte). *)
Record flags := mkflags { raw : N }.

(** modular_bitfield getter/setter for a field of width [w] at bit offset [o]. *)
Definition get_field (o w : N) (f : flags) : N := (raw f / 2 ^ o) mod 2 ^ w.
Definition set_field (o w : N) (f : flags) (x : N) : flags :=
  mkflags (raw f / 2 ^ (o + w) * 2 ^ (o + w) + x * 2 ^ o + raw f mod 2 ^ o).

(** header.rs:223-239: field offsets and widths. *)
Definition rd := get_field 0 1.      Definition set_rd := set_field 0 1.
Definition tc := get_field 1 1.      Definition set_tc := set_field 1 1.
Definition aa := get_field 2 1.      Definition set_aa := set_field 2 1.
Definition opcode_f := get_field 3 4. Definition set_opcode_f := set_field 3 4.
Definition qr := get_field 7 1.      Definition set_qr := set_field 7 1.
Definition rcode := get_field 8 4.   Definition set_rcode := set_field 8 4.
Definition z := get_field 12 3.
Definition ra := get_field 15 1.     Definition set_ra := set_field 15 1.

(** [FlagBitfield::from_bytes] / [into_bytes]. *)
Definition flags_from_bytes (bs : bytes) : flags :=
  mkflags (nth 0 bs 0 + 256 * nth 1 bs 0).
Definition flags_into_bytes (f : flags) : bytes := [raw f mod 256; raw f / 256].

(** header.rs:33-51. *)
Record header := mkheader {
  id : N; hflags : flags; ques_count : N; ans_count : N; auth_count : N; add_count : N }.

(** header.rs:55, [Header::SIZE = size_of::<Header>()]: five u16 and a 2-byte bit field. *)
Definition HEADER_SIZE : nat := 12.

(** header.rs:245-254, [OpCode] with its discriminants (Reserved = 3). *)
Inductive opcode := StandardQuery | InverseQuery | ServerStatusRequest | OpReserved.
Definition opcode_code (o : opcode) : N :=
  match o with StandardQuery => 0 | InverseQuery => 1 | ServerStatusRequest => 2 | OpReserved => 3 end.
(** header.rs:256-265. *)
Definition opcode_from (n : N) : opcode :=
  match assoc n [(0, StandardQuery); (1, InverseQuery); (2, ServerStatusRequest)] with
  | Some o => o
  | None => OpReserved
  end.

(** header.rs:270-308, [ResponseCode]. *)
Inductive response_code :=
| NoError | FormatError | ServerFailure | NameError | NotImplemented | Refused
| YXDomain | YXRRSet | NXRRSet | NotAuth | NotZone.
Definition response_code_code (r : response_code) : N :=
  match r with
  | NoError => 0 | FormatError => 1 | ServerFailure => 2 | NameError => 3 | NotImplemented => 4
  | Refused => 5 | YXDomain => 6 | YXRRSet => 7 | NXRRSet => 8 | NotAuth => 9 | NotZone => 10
  end.
(** header.rs:310-328. *)
Definition response_code_try_from (n : N) : res response_code :=
  ok_or (assoc n [(0, NoError); (1, FormatError); (2, ServerFailure); (3, NameError);
                  (4, NotImplemented); (5, Refused); (6, YXDomain); (7, YXRRSet);
                  (8, NXRRSet); (9, NotAuth); (10, NotZone)])
        (InvalidResponseCode n).

Definition b2n (b : bool) : N := if b then 1 else 0.
Definition flags0 : flags := mkflags 0.

(** header.rs:59-72, [new_query]. *)
Definition header_new_query (i : N) (recursion_desired : bool) : header :=
  mkheader i (set_rd (set_opcode_f flags0 (opcode_code StandardQuery)) (b2n recursion_desired))
           0 0 0 0.
(** header.rs:76-86, [new_reply]. *)
Definition header_new_reply (i : N) (o : opcode) : header :=
  mkheader i (set_qr (set_opcode_f flags0 (opcode_code o)) 1) 0 0 0 0.
(** [Header::default()] (derive at header.rs:32). *)
Definition header_default : header := mkheader 0 flags0 0 0 0 0.

Definition with_flags (h : header) (f : flags) : header :=
  mkheader (id h) f (ques_count h) (ans_count h) (auth_count h) (add_count h).

(** header.rs:88-90, 97-99, 106-108, 115-117, 125-127, 143-145, 158-160: getters. *)
Definition recursion_desired (h : header) : bool := negb (rd (hflags h) =? 0).
Definition truncation (h : header) : bool := negb (tc (hflags h) =? 0).
Definition authoritative_answer (h : header) : bool := negb (aa (hflags h) =? 0).
Definition header_opcode (h : header) : opcode := opcode_from (opcode_f (hflags h)).
Definition query_response (h : header) : bool := negb (qr (hflags h) =? 0).
Definition recursion_available (h : header) : bool := negb (ra (hflags h) =? 0).
(** [ResponseCode::try_from(..).unwrap()]: panics on [Err]. *)
Definition header_response_code (h : header) : res response_code :=
  match response_code_try_from (rcode (hflags h)) with
  | Err _ => Panic
  | r => r
  end.

(** header.rs:92-95, 101-104, 110-113, 119-123, 129-141, 147-156, 162-170: setters. *)
Definition set_recursion_desired (h : header) (b : bool) : header :=
  with_flags h (set_rd (hflags h) (b2n b)).
Definition set_truncation (h : header) (b : bool) : header :=
  with_flags h (set_tc (hflags h) (b2n b)).
Definition set_authoritative_answer (h : header) (b : bool) : header :=
  with_flags h (set_aa (hflags h) (b2n b)).
Definition set_opcode (h : header) (o : opcode) : header :=
  with_flags h (set_opcode_f (hflags h) (opcode_code o)).
Definition set_query_response (h : header) (b : bool) : header :=
  let f := set_qr (hflags h) (b2n b) in
  with_flags h (if b then f else set_rcode (set_ra f 0) (response_code_code NoError)).
Definition set_response_code (h : header) (r : response_code) : header :=
  let f := set_rcode (hflags h) (response_code_code r) in
  with_flags h (match r with NoError => f | _ => set_qr f 1 end).
Definition set_recursion_available (h : header) (b : bool) : header :=
  let f := set_ra (hflags h) (b2n b) in
  with_flags h (if b then set_qr f 1 else f).

(** header.rs:178-187, [to_bytes]. *)
Definition header_to_bytes (h : header) : bytes :=
  be 2 (id h) ++ flags_into_bytes (hflags h) ++ be 2 (ques_count h) ++ be 2 (ans_count h)
  ++ be 2 (auth_count h) ++ be 2 (add_count h).

(** header.rs:202-215, [TryFrom<&mut DnsBuffer>]. *)
Definition header_try_from : P header :=
  i <- extract_u16 ;;
  fb <- extract_bytes 2 ;;
  q <- extract_u16 ;;
  a <- extract_u16 ;;
  n <- extract_u16 ;;
  d <- extract_u16 ;;
  ret (mkheader i (flags_from_bytes fb) q a n d).
