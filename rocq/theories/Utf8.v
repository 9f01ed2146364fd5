(** * UTF-8 validation and lossy conversion of the Rust standard library.

    Models [core::str::lossy::Utf8Chunks::next] / [String::from_utf8] / [String::from_utf8_lossy]
    (Rust standard library; used at buffer.rs:125, fqdn.rs:69, rdata/txt.rs, rdata/caa.rs).
    This is the Unicode "well-formed UTF-8" table with substitution of maximal subparts. *)
From Verif Require Import Base.

Definition in_range (lo hi b : N) : bool := (lo <=? b) && (b <=? hi).
Definition is_cont (b : N) : bool := in_range 128 191 b.

(** [safe_get]: next byte or 0. *)
Definition peek0 (l : bytes) : N := hd 0 l.

(** Outcome of scanning one character at the head of a non-empty byte string:
    [(true, n)]: the first [n] bytes are a character;
    [(false, n)]: the first [n] bytes are a maximal ill-formed subpart. *)
Definition second_ok (b0 b1 : N) : bool :=
  if b0 =? 224 then in_range 160 191 b1
  else if in_range 225 236 b0 then in_range 128 191 b1
  else if b0 =? 237 then in_range 128 159 b1
  else if in_range 238 239 b0 then in_range 128 191 b1
  else if b0 =? 240 then in_range 144 191 b1
  else if in_range 241 243 b0 then in_range 128 191 b1
  else if b0 =? 244 then in_range 128 143 b1
  else false.

Definition utf8_scan (b0 : N) (rest : bytes) : bool * nat :=
  if b0 <? 128 then (true, 1%nat)
  else if in_range 194 223 b0 then
    if is_cont (peek0 rest) then (true, 2%nat) else (false, 1%nat)
  else if in_range 224 239 b0 then
    if second_ok b0 (peek0 rest) then
      if is_cont (peek0 (tl rest)) then (true, 3%nat) else (false, 2%nat)
    else (false, 1%nat)
  else if in_range 240 244 b0 then
    if second_ok b0 (peek0 rest) then
      if is_cont (peek0 (tl rest)) then
        if is_cont (peek0 (tl (tl rest))) then (true, 4%nat) else (false, 3%nat)
      else (false, 2%nat)
    else (false, 1%nat)
  else (false, 1%nat).

(** [String::from_utf8(..).is_ok()].  The fuel is the length of the input; every step consumes
    at least one byte, so it never runs out (proved in Utf8Facts). *)
Fixpoint utf8_valid_fuel (fuel : nat) (l : bytes) : bool :=
  match l with
  | [] => true
  | b :: rest =>
    match fuel with
    | O => false
    | S f =>
      match utf8_scan b rest with
      | (true, n) => utf8_valid_fuel f (skipn n l)
      | (false, _) => false
      end
    end
  end.
Definition utf8_valid (l : bytes) : bool := utf8_valid_fuel (length l) l.

(** U+FFFD in UTF-8. *)
Definition replacement : bytes := [239; 191; 189].

(** [String::from_utf8_lossy(..).to_string()]. *)
Fixpoint utf8_lossy_fuel (fuel : nat) (l : bytes) : bytes :=
  match l with
  | [] => []
  | b :: rest =>
    match fuel with
    | O => []
    | S f =>
      match utf8_scan b rest with
      | (true, n) => firstn n l ++ utf8_lossy_fuel f (skipn n l)
      | (false, n) => replacement ++ utf8_lossy_fuel f (skipn n l)
      end
    end
  end.
Definition utf8_lossy (l : bytes) : bytes := utf8_lossy_fuel (length l) l.
