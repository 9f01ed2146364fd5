(** * The type bitmaps of CSYNC (csync.rs) and NSEC (dnssec.rs).

    The two files contain the same loops; csync.rs:85-100 = dnssec.rs:62-77 (parse),
    csync.rs:125-141 = dnssec.rs:91-107 = dnssec.rs:151-167 (size),
    csync.rs:153-176 = dnssec.rs:118-141 = dnssec.rs:182-205 (encode). *)
From Verif Require Import Base Buffer Types.

(** A [BTreeSet<RecordType>]: its elements in increasing order ([RecordType] derives [Ord], which
    orders by discriminant, resource.rs:63-64). *)
Definition tset := list rtype.

(** csync.rs:94, [(octet << i) & 0x80 > 0] on u8. *)
Definition bit_is_set (octet i : N) : bool := negb (N.land (u8 (N.shiftl octet i)) 128 =? 0).

(** csync.rs:93-98: the inner loop over the bits of one octet; u16 arithmetic. *)
Definition octet_types (c : cfg) (window index octet : N) (acc : tset) : res tset :=
  rfold (fun acc i =>
           if bit_is_set octet i then
             let! w := umul c M16 256 window in
             let! x := umul c M16 8 (u16 index) in
             let! wx := uadd c M16 w x in
             let! position := uadd c M16 wx i in
             let! t := rtype_try_from c position in
             Ok (set_insert rtype_code t acc)
           else Ok acc)
        [0; 1; 2; 3; 4; 5; 6; 7] acc.

(** csync.rs:92-99: [for (index, octet) in bitmap.iter().enumerate()]. *)
Fixpoint bitmap_types (c : cfg) (window index : N) (bitmap : bytes) (acc : tset) : res tset :=
  match bitmap with
  | [] => Ok acc
  | o :: rest => let! acc' := octet_types c window index o acc in
                 bitmap_types c window (index + 1) rest acc'
  end.

(** csync.rs:86-99: one window. *)
Definition window_step (c : cfg) (acc : tset) : P tset :=
  w <- extract_u8 ;;
  n <- extract_u8 ;;
  bm <- extract_bytes (N.to_nat n) ;;
  lift (bitmap_types c w 0 bm acc).

(** csync.rs:84-100. *)
Definition types_try_from (c : cfg) : P tset := loop_remaining (window_step c) [].

(** csync.rs:155, [[0_u8; 32]]. *)
Definition zero_block : bytes := repeat 0 32.

Fixpoint set_nth (l : bytes) (i : nat) (x : N) : bytes :=
  match l, i with
  | [], _ => []
  | _ :: l', O => x :: l'
  | y :: l', S i' => y :: set_nth l' i' x
  end.

(** csync.rs:162-164: push the current block. *)
Definition flush_block (c : cfg) (block_num block_len : N) (block : bytes) : res bytes :=
  let! l := uadd c M8 block_len 1 in
  if (length block <=? N.to_nat block_len)%nat then Panic
  else Ok ([u8 block_num] ++ [l] ++ firstn (S (N.to_nat block_len)) block).

(** csync.rs:173-175: returns the new [block_len] and [block_data]. *)
Definition set_type_bit (c : cfg) (rt block_num : N) (block : bytes) : res (N * bytes) :=
  let! o := umul c M16 32 block_num in
  let! d := usub c M16 (rt / 8) o in
  let len := u8 d in
  match nth_error block (N.to_nat len) with
  | None => Panic
  | Some x => Ok (len, set_nth block (N.to_nat len) (N.lor x (N.shiftr 128 (rt mod 8))))
  end.

(** csync.rs:153-176. *)
Fixpoint types_enc (c : cfg) (ts : tset) (block_num block_len : N) (block : bytes) : res bytes :=
  match ts with
  | [] => flush_block c block_num block_len block
  | t :: ts' =>
    let rt := rtype_code t in
    let! o := umul c M16 block_num 32 in
    let! d := usub c M16 rt o in
    if 255 <? d then
      let! out := flush_block c block_num block_len block in
      let! bn := uadd c M16 block_num 1 in
      let! st := set_type_bit c rt bn zero_block in
      let! rest := types_enc c ts' bn (fst st) (snd st) in
      Ok (out ++ rest)
    else
      let! st := set_type_bit c rt block_num block in
      types_enc c ts' block_num (fst st) (snd st)
  end.
Definition types_to_bytes (c : cfg) (ts : tset) : res bytes := types_enc c ts 0 0 zero_block.

(** csync.rs:125-141: the bytes of the windows as counted by [byte_size]. *)
Definition block_size (c : cfg) (block_num : N) (last : option N) : res nat :=
  let! o := umul c M16 32 block_num in
  let! d := usub c M16 (match last with Some r => r | None => 0 end / 8) o in
  Ok (2 + (N.to_nat d + 1))%nat.
Fixpoint types_size (c : cfg) (ts : tset) (block_num : N) (last : option N) : res nat :=
  match ts with
  | [] => block_size c block_num last
  | t :: ts' =>
    let rt := rtype_code t in
    let! o := umul c M16 block_num 32 in
    let! d := usub c M16 rt o in
    if 255 <? d then
      let! n := block_size c block_num last in
      let! bn := uadd c M16 block_num 1 in
      let! rest := types_size c ts' bn (Some rt) in
      Ok (n + rest)%nat
    else types_size c ts' block_num (Some rt)
  end.
Definition types_byte_size (c : cfg) (ts : tset) : res nat := types_size c ts 0 None.

(** csync.rs:183-230, [Flags(u16)]; the field is private, so the reachable values are those built by
    [new]/[default], the setters and [try_from]. *)
Definition csync_flags := N.
Definition csync_flags_new : csync_flags := 0.
Definition csync_flags_try_from (n : N) : res csync_flags :=
  if negb (N.land n 65532 =? 0) then Err (InvalidCsyncFlag n) else Ok n.
Definition csync_immediate (f : csync_flags) : bool := negb (N.land f 1 =? 0).
Definition csync_set_immediate (f : csync_flags) (b : bool) : csync_flags :=
  if b then N.lor f 1 else N.land f 65534.
Definition csync_soa_minimum (f : csync_flags) : bool := negb (N.land f 2 =? 0).
Definition csync_set_soa_minimum (f : csync_flags) (b : bool) : csync_flags :=
  if b then N.lor f 2 else N.land f 65533.

(** csync.rs:39-64, 79-107, 122-144, 146-179. *)
Record csync := mkCsync { cs_serial : N; cs_flags : csync_flags; cs_types : tset }.
Definition csync_try_from (c : cfg) : P csync :=
  s <- extract_u32 ;;
  f <- extract_u16_as csync_flags_try_from ;;
  ts <- types_try_from c ;;
  ret (mkCsync s f ts).
Definition csync_byte_size (c : cfg) (x : csync) : res nat :=
  let! n := types_byte_size c (cs_types x) in Ok (4 + 2 + n)%nat.
Definition csync_to_bytes (c : cfg) (x : csync) : res bytes :=
  let! bs := types_to_bytes c (cs_types x) in
  Ok (be 4 (cs_serial x) ++ be 2 (cs_flags x) ++ bs).
