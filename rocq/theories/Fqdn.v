(** * Model of fqdn.rs: names, their text form, their plain and compressed wire forms. *)
From Verif Require Import Base Utf8 Buffer.

(** fqdn.rs:18-21, [FQDN { data: Vec<Vec<u8>> }].  Any list of labels can be built through
    [From<Vec<Vec<u8>>>] (fqdn.rs:143-147), [From<&[&str]>] (133-141) or [append_label]. *)
Definition fqdn := list bytes.

(** [str::split('.')] on bytes: '.' is one ASCII byte (46), so splitting the UTF-8 text at the
    character and at the byte are the same. *)
Fixpoint split_dot (cur : bytes) (s : bytes) : list bytes :=
  match s with
  | [] => [cur]
  | b :: s' => if b =? 46 then cur :: split_dot [] s' else split_dot (cur ++ [b]) s'
  end.

Definition nonempty (l : bytes) : bool := match l with [] => false | _ => true end.

(** fqdn.rs:26-34, [FQDN::new]. *)
Definition fqdn_new (s : bytes) : fqdn := filter nonempty (split_dot [] s).

(** fqdn.rs:82-84, [append_label]. *)
Definition fqdn_append_label (f : fqdn) (l : bytes) : fqdn := f ++ [l].

(** fqdn.rs:167-179, [ByteConvertible::byte_size]. *)
Definition fqdn_byte_size (f : fqdn) : nat :=
  fold_left (fun acc l => (acc + if nonempty l then 1 + length l else 0)%nat) f 1%nat.

(** fqdn.rs:181-192, [to_bytes]. *)
Definition fqdn_to_bytes (f : fqdn) : bytes :=
  fold_left (fun buf l => if nonempty l then buf ++ len8 (length l) :: l else buf) f [] ++ [0].

(** fqdn.rs:37-39, 42-44, 47-49. *)
Definition fqdn_is_empty (f : fqdn) : bool := (fqdn_byte_size f =? 0)%nat.
Definition fqdn_len (f : fqdn) : nat := fqdn_byte_size f.
Definition fqdn_label_count (f : fqdn) : N := len8 (length f).

Fixpoint bytes_eqb (a b : bytes) : bool :=
  match a, b with
  | [], [] => true
  | x :: a', y :: b' => (x =? y) && bytes_eqb a' b'
  | _, _ => false
  end.

(** The text "local". *)
Definition local_label : bytes := [108; 111; 99; 97; 108].

(** fqdn.rs:62-73, [is_link_local]. *)
Definition fqdn_is_link_local (f : fqdn) : bool :=
  match rev f with
  | l :: _ => if utf8_valid l then bytes_eqb l local_label else false
  | [] => false
  end.

(** fqdn.rs:76-79, [is_root]. *)
Definition fqdn_is_root (f : fqdn) : bool :=
  fqdn_is_empty f || forallb (fun l => negb (nonempty l)) f.

(** fqdn.rs:87-98, [Display]: labels separated by '.'.  The bytes handed to the formatter; the
    [from_utf8_unchecked] is the subject of property C12. *)
Fixpoint fqdn_display (f : fqdn) : bytes :=
  match f with
  | [] => []
  | [l] => l
  | l :: f' => l ++ 46 :: fqdn_display f'
  end.

(** The compression dictionary [HashMap<u64, usize>] (packet.rs:243): an association list, newest
    binding first.  [names.get] and [names.insert]. *)
Definition names := list (N * nat).
Fixpoint names_get (k : N) (m : names) : option nat :=
  match m with
  | [] => None
  | (k', v) :: m' => if k =? k' then Some v else names_get k m'
  end.
Definition names_insert (k : N) (v : nat) (m : names) : names := (k, v) :: m.

(** util.rs:8-14, [hash_fqdn]: SipHash of the label list.  A parameter of everything below. *)
Definition hasher := fqdn -> N.

(** fqdn.rs:225, [( *pointer as u16 | COMPRESSION_MASK_U16).to_be_bytes()]. *)
Definition pointer_bytes (off : nat) : bytes :=
  be 2 (N.lor (u16 (N.of_nat off)) COMPRESSION_MASK_U16).

(** fqdn.rs:217-241, [to_bytes_compressed]: recursion over the suffixes [&self.data[i..]].
    Returns the bytes and the updated dictionary. *)
Fixpoint fqdn_to_bytes_compressed (h : hasher) (f : fqdn) (m : names) (offset : nat)
  : bytes * names :=
  match f with
  | [] => ([0], m)
  | l :: f' =>
    match names_get (h f) m with
    | Some p => (pointer_bytes p, m)
    | None =>
      let '(bs, m') :=
        fqdn_to_bytes_compressed h f' (names_insert (h f) offset m) (offset + (length l + 1)) in
      (len8 (length l) :: l ++ bs, m')
    end
  end.

(** fqdn.rs:196-215, [byte_size_compressed]. *)
Fixpoint fqdn_byte_size_compressed (h : hasher) (f : fqdn) (m : names) (offset : nat)
  : nat * names :=
  match f with
  | [] => (1%nat, m)
  | l :: f' =>
    match names_get (h f) m with
    | Some _ => (2%nat, m)
    | None =>
      let '(n, m') :=
        fqdn_byte_size_compressed h f' (names_insert (h f) offset m) (offset + (length l + 1)) in
      ((length l + 1 + n)%nat, m')
    end
  end.
