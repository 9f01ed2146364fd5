(** * Model: addresses from texts (a.rs:79-85, aaaa.rs:83-89)

    [value.parse::<Ipv4Addr>()] and [value.parse::<Ipv6Addr>()].  External code: the parser of the standard library (core/src/net/parser.rs) as
    published, from memory of its source; it is modelled function by function.  Every reader there restores its state when it fails
    ([read_atomically]), so a reader is a function to an optional result and rest. *)
From Verif Require Import Base Buffer.

(** [char::to_digit]. *)
Definition to_digit (radix b : N) : option N :=
  let d := if (48 <=? b) && (b <=? 57) then b - 48
           else if (97 <=? b) && (b <=? 122) then b - 87
           else if (65 <=? b) && (b <=? 90) then b - 55 else 36 in
  if d <? radix then Some d else None.
(** The loop of [read_number]: value and number of the digits, and the rest. *)
Fixpoint read_digits (radix : N) (max : nat) (acc : N) (count : nat) (s : bytes) : option (N * nat * bytes) :=
  match s with
  | [] => Some (acc, count, [])
  | b :: s' =>
    match to_digit radix b with
    | None => Some (acc, count, s)
    | Some d => if (max <? S count)%nat then None else read_digits radix max (acc * radix + d) (S count) s'
    end
  end.
(** [read_number(radix, Some(max), zero_prefix)] to a type with [limit] values. *)
Definition read_number (radix : N) (max : nat) (zero_prefix : bool) (limit : N) (s : bytes) : option (N * bytes) :=
  match read_digits radix max 0 0 s with
  | None => None
  | Some (n, count, r) =>
    if (count =? 0)%nat then None
    else if negb zero_prefix && match s with b :: _ => b =? 48 | [] => false end && (1 <? count)%nat then None
    else if n <? limit then Some (n, r) else None
  end.
(** [read_given_char]. *)
Definition read_char (x : N) (s : bytes) : option bytes :=
  match s with b :: r => if b =? x then Some r else None | [] => None end.
(** [read_separator]. *)
Definition read_separator {A} (sep : N) (index : nat) (inner : bytes -> option (A * bytes)) (s : bytes) : option (A * bytes) :=
  match index with
  | O => inner s
  | S _ => match read_char sep s with Some r => inner r | None => None end
  end.
(** [read_ipv4_addr]: the loop over the four octets; [k] are left. *)
Fixpoint read_octets (k i : nat) (s : bytes) : option (list N * bytes) :=
  match k with
  | O => Some ([], s)
  | S k =>
    match read_separator 46 i (read_number 10 3 false 256) s with
    | None => None
    | Some (n, r) => match read_octets k (S i) r with Some (l, r') => Some (n :: l, r') | None => None end
    end
  end.
Definition read_ipv4 (s : bytes) : option (list N * bytes) := read_octets 4 0 s.
(** [read_groups]: the groups read, whether they end with an IPv4 address, and the rest; [k] groups are left of the limit. *)
Fixpoint read_groups (k i : nat) (s : bytes) : list N * bool * bytes :=
  match k with
  | O => ([], false, s)
  | S k =>
    match (if (0 <? k)%nat then read_separator 58 i read_ipv4 s else None) with
    | Some (o, r) => ([nth 0 o 0 * 256 + nth 1 o 0; nth 2 o 0 * 256 + nth 3 o 0], true, r)
    | None =>
      match read_separator 58 i (read_number 16 4 true 65536) s with
      | Some (g, r) => let '(l, v4, r') := read_groups k (S i) r in (g :: l, v4, r')
      | None => ([], false, s)
      end
    end
  end.
(** [read_ipv6_addr]. *)
Definition read_ipv6 (s : bytes) : option (list N * bytes) :=
  let '(h, v4, r) := read_groups 8 0 s in
  if (length h =? 8)%nat then Some (h, r)
  else if v4 then None
  else match read_char 58 r with
       | None => None
       | Some r =>
         match read_char 58 r with
         | None => None
         | Some r =>
           let '(t, _, r) := read_groups (8 - (length h + 1)) 0 r in
           Some (h ++ repeat 0 (8 - length h - length t) ++ t, r)
         end
       end.
(** [parse_with]: nothing may be left over.  [Ipv4Addr::from_str] refuses more than 15 octets at once. *)
Definition all_read {A} (x : option (A * bytes)) : option A := match x with Some (a, []) => Some a | _ => None end.
(** a.rs:79-85; the address as a number, as everywhere in the model. *)
Definition a_from_text (s : bytes) : option N :=
  if (15 <? length s)%nat then None else option_map unbe (all_read (read_ipv4 s)).
(** aaaa.rs:83-89. *)
Definition aaaa_from_text (s : bytes) : option N := option_map (fun gs => unbe (flat_map (be 2) gs)) (all_read (read_ipv6 s)).
