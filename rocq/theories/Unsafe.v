(** * Model: the stores through a raw pointer (packet.rs:297-313)

    The output vector is a [Vec<u8>], for which the allocator may choose any address ([Layout] of alignment 1).  A store of a [u16] through a raw
    pointer is undefined behaviour if the address is odd or if it leaves the vector; the model stops there with [None]. *)
From Verif Require Import Base Buffer Fqdn Header Types RDataBasic Bitmap Svcb RDataSec RData Packet.

Inductive endian : Set := Little | Big.
(** The octets of a [u16] in memory. *)
Definition in_memory (e : endian) (n : N) : bytes :=
  match e with Little => [n mod 256; n / 256 mod 256] | Big => [n / 256 mod 256; n mod 256] end.
(** [u16::to_be]. *)
Definition to_be (e : endian) (n : N) : N :=
  match e with Little => n mod 256 * 256 + n / 256 mod 256 | Big => n end.
(** [*ptr.offset(k) = n] where [ptr] is the start of the vector [v], at address [base], cast to [*mut u16]. *)
Definition store_u16 (e : endian) (base : N) (k : nat) (n : N) (v : bytes) : option bytes :=
  if N.odd (base + 2 * N.of_nat k) then None
  else if (length v <? 2 * k + 2)%nat then None
  else Some (firstn (2 * k) v ++ in_memory e n ++ skipn (2 * k + 2) v).
Definition obind {A B} (x : option A) (f : A -> option B) : option B := match x with Some a => f a | None => None end.
(** packet.rs:297-313: the header is copied into the vector, then the four counts are stored. *)
Definition stored_header (e : endian) (base : N) (p : packet) : option bytes :=
  obind (store_u16 e base 2 (to_be e (len16 (length (p_questions p)))) (header_to_bytes (p_header p))) (fun v =>
  obind (store_u16 e base 3 (to_be e (len16 (length (p_answers p)))) v) (fun v =>
  obind (store_u16 e base 4 (to_be e (len16 (length (p_authorities p)))) v) (fun v =>
  store_u16 e base 5 (to_be e (len16 (length (p_additionals p)))) v))).
(** packet.rs:282-329 on a machine of byte order [e], with the output at address [base]; [None] is undefined behaviour. *)
Definition packet_to_bytes_at (e : endian) (base : N) (c : cfg) (p : packet) : option (res bytes) :=
  match packet_byte_size c p with
  | Ok _ =>
    obind (stored_header e base p) (fun hd =>
    Some (let! a := concat_res (rr_to_bytes c) (p_answers p) in
          let! n := concat_res (rr_to_bytes c) (p_authorities p) in
          let! d := concat_res (rr_to_bytes c) (p_additionals p) in
          Ok (hd ++ flat_map (question_to_bytes c) (p_questions p) ++ a ++ n ++ d)))
  | Err x => Some (Err x)
  | Panic => Some Panic
  | Diverge => Some Diverge
  end.
