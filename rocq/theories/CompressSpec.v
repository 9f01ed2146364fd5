(** * Specification vocabulary: a message in which names are written with one shared compression
    dictionary. *)
From Verif Require Import Base Buffer Fqdn NameSpec.

(** What a message is assembled from: arbitrary octets, and names written compressed. *)
Inductive chunk := Raw (b : bytes) | Name (f : fqdn).

Definition names_of (cs : list chunk) : list fqdn :=
  flat_map (fun c => match c with Raw _ => [] | Name f => [f] end) cs.

(** Writing the chunks after [w]: the final message, the dictionary, and for each name the places where
    its octets begin and end. *)
Fixpoint write_chunks (h : hasher) (cs : list chunk) (w : bytes) (m : names)
  : bytes * list (nat * fqdn * nat) :=
  match cs with
  | [] => (w, [])
  | Raw b :: cs' => write_chunks h cs' (w ++ b) m
  | Name f :: cs' =>
    let '(bs, m') := fqdn_to_bytes_compressed h f m (length w) in
    let '(w', marks) := write_chunks h cs' (w ++ bs) m' in
    (w', (length w, f, length w + length bs)%nat :: marks)
  end.

(** [s] is a non-empty tail of one of the names. *)
Definition tail_of (fs : list fqdn) (s : fqdn) : Prop :=
  s <> [] /\ exists f a, In f fs /\ f = a ++ s.

(** The 64-bit hash tells apart all the name tails that occur. *)
Definition hash_separates (h : hasher) (fs : list fqdn) : Prop :=
  forall s1 s2, tail_of fs s1 -> tail_of fs s2 -> h s1 = h s2 -> s1 = s2.

(** Every name written can be read back from the finished message at its place. *)
Definition all_read_back (h : hasher) (cs : list chunk) : Prop :=
  let '(w, marks) := write_chunks h cs [] [] in
  Forall (fun x => let '(p, f, q) := x in extract_fqdn (mkbuf w p) = (Ok f, mkbuf w q)) marks.
