(** * Models of question.rs:246-395, resource.rs:270-496, packet.rs, resource_record_set.rs. *)
From Verif Require Import Base Buffer Fqdn Header Types RDataBasic Bitmap Svcb RDataSec RData.

(** ** question.rs *)

(** question.rs:248-258.  Without feature [mdns] there is no [unicast_response] field; the model's
    field is then always [false] (see [question_try_from]). *)
Record question := mkQ { q_name : fqdn; q_type : qtype; q_class : qclass; q_unicast : bool }.
(** question.rs:262-270. *)
Definition question_new (f : fqdn) (t : qtype) (k : qclass) : question := mkQ f t k false.

(** question.rs:319, 322 / resource.rs:386, 389: bit 15 of a class field. *)
Definition TOP_BIT : N := 32768.

(** question.rs:310-335. *)
Definition question_try_from (c : cfg) : P question :=
  f <- extract_fqdn ;;
  t <- extract_u16_as (qtype_try_from c) ;;
  if mdns c then
    v <- extract_u16 ;;
    if negb (N.land v TOP_BIT =? 0) then
      k <- lift (qclass_try_from (N.land v 32767)) ;; ret (mkQ f t k true)
    else
      k <- lift (qclass_try_from v) ;; ret (mkQ f t k false)
  else
    k <- extract_u16_as qclass_try_from ;; ret (mkQ f t k false).

(** question.rs:339-341. *)
Definition question_byte_size (q : question) : nat := fqdn_byte_size (q_name q) + 2 + 2.

(** question.rs:350-361 (= 379-391). *)
Definition question_class_field (c : cfg) (q : question) : N :=
  if mdns c then if q_unicast q then N.lor (qclass_code (q_class q)) TOP_BIT else qclass_code (q_class q)
  else qclass_code (q_class q).

(** question.rs:343-364. *)
Definition question_to_bytes (c : cfg) (q : question) : bytes :=
  fqdn_to_bytes (q_name q) ++ be 2 (qtype_code (q_type q)) ++ be 2 (question_class_field c q).

(** question.rs:372-394. *)
Definition question_to_bytes_compressed (c : cfg) (h : hasher) (q : question) (m : names) (off : nat)
  : bytes * names :=
  let '(nb, m') := fqdn_to_bytes_compressed h (q_name q) m off in
  (nb ++ be 2 (qtype_code (q_type q)) ++ be 2 (question_class_field c q), m').

(** question.rs:368-370. *)
Definition question_byte_size_compressed (h : hasher) (q : question) (m : names) (off : nat)
  : nat * names :=
  let '(n, m') := fqdn_byte_size_compressed h (q_name q) m off in ((n + 2 * 2)%nat, m').

(** ** resource.rs *)

(** resource.rs:272-289; [rr_flush] plays the role of the [mdns]-only [cache_flush]. *)
Record rr := mkRR { rr_name : fqdn; rr_type : rtype; rr_flush : bool; rr_class : rclass; rr_ttl : N;
                    rr_data : rdata }.
(** resource.rs:293-309. *)
Definition rr_new (f : fqdn) (t : rtype) (k : rclass) (ttl : N) (d : rdata) : rr :=
  mkRR f t false k ttl d.

(** resource.rs:400-403: parse the record data in a sub-buffer of [data_len] bytes, then skip
    [data_len] bytes of the outer buffer. *)
Definition framed {A} (len : nat) (p : P A) : P A := fun b =>
  match sub_buffer b len with
  | Ok sb =>
    match p sb with
    | (Ok a, _) => (_ <- advance len ;; ret a) b
    | (Err e, _) => (Err e, b)
    | (Panic, _) => (Panic, b)
    | (Diverge, _) => (Diverge, b)
    end
  | Err e => (Err e, b)
  | Panic => (Panic, b)
  | Diverge => (Diverge, b)
  end.

(** resource.rs:382-394. *)
Definition rr_class_field_parse (c : cfg) (v : N) : rclass * bool :=
  if mdns c then
    if negb (N.land v TOP_BIT =? 0) then (rclass_from (N.land v 32767), true)
    else (rclass_from v, false)
  else (rclass_from v, false).

(** resource.rs:377-414. *)
Definition rr_try_from (c : cfg) : P rr :=
  f <- extract_fqdn ;;
  t <- extract_u16_as (rtype_try_from c) ;;
  v <- extract_u16 ;;
  ttlb <- extract_bytes 4 ;;
  len <- extract_u16 ;;
  d <- framed (N.to_nat len) (rdata_from c t) ;;
  let k := rr_class_field_parse c v in
  ret (mkRR f t (snd k) (fst k) (unbe ttlb) d).

(** resource.rs:418-425. *)
Definition rr_byte_size (c : cfg) (r : rr) : res nat :=
  let! n := rdata_byte_size c (rr_data r) in
  Ok (fqdn_byte_size (rr_name r) + 2 + 2 + 4 + 2 + n)%nat.

(** resource.rs:432-443 (= 472-483). *)
Definition rr_class_field (c : cfg) (r : rr) : N :=
  if mdns c then if rr_flush r then N.lor (rclass_code (rr_class r)) TOP_BIT else rclass_code (rr_class r)
  else rclass_code (rr_class r).

(** resource.rs:427-452.  428 runs [byte_size] for the capacity; 447 writes RDLENGTH from
    [byte_size]. *)
Definition rr_to_bytes (c : cfg) (r : rr) : res bytes :=
  let! _ := rr_byte_size c r in
  let! n := rdata_byte_size c (rr_data r) in
  let! d := rdata_to_bytes c (rr_data r) in
  Ok (fqdn_to_bytes (rr_name r) ++ be 2 (rtype_code (rr_type r)) ++ be 2 (rr_class_field c r)
      ++ be 4 (rr_ttl r) ++ be 2 (len16 n) ++ d).

(** resource.rs:465-495.  [buffer.len() + 2] at 489 is the name plus type, class, TTL, plus 2. *)
Definition rr_to_bytes_compressed (c : cfg) (h : hasher) (r : rr) (m : names) (off : nat)
  : res (bytes * names) :=
  let '(nb, m1) := fqdn_to_bytes_compressed h (rr_name r) m off in
  let buffer := nb ++ be 2 (rtype_code (rr_type r)) ++ be 2 (rr_class_field c r) ++ be 4 (rr_ttl r) in
  let! dm := rdata_to_bytes_compressed c h (rr_data r) m1 (off + length buffer + 2) in
  Ok (buffer ++ be 2 (len16 (length (fst dm))) ++ fst dm, snd dm).

(** resource.rs:456-463. *)
Definition rr_byte_size_compressed (c : cfg) (h : hasher) (r : rr) (m : names) (off : nat)
  : res (nat * names) :=
  let '(n, m1) := fqdn_byte_size_compressed h (rr_name r) m off in
  let! dm := rdata_byte_size_compressed c h (rr_data r) m1 off in
  Ok ((n + 2 + 2 + 4 + 2 + fst dm)%nat, snd dm).

(** ** packet.rs *)

(** packet.rs:27-46. *)
Record packet := mkPacket { p_header : header; p_questions : list question; p_answers : list rr;
                            p_authorities : list rr; p_additionals : list rr }.

(** packet.rs:52-60, 65-73, 78-86. *)
Definition packet_new_query (i : N) (rdsr : bool) : packet := mkPacket (header_new_query i rdsr) [] [] [] [].
Definition packet_new_reply (i : N) : packet := mkPacket (header_new_reply i StandardQuery) [] [] [] [].
Definition packet_with_questions (i : N) (rc : bool) (qs : list question) : packet :=
  mkPacket (header_new_query i rc) qs [] [] [].
(** [Packet::default()] (derive, packet.rs:26). *)
Definition packet_default : packet := mkPacket header_default [] [] [] [].

Definition with_header (p : packet) (h : header) : packet :=
  mkPacket h (p_questions p) (p_answers p) (p_authorities p) (p_additionals p).
Definition with_counts (h : header) (q a n d : N) : header := mkheader (id h) (hflags h) q a n d.

(** packet.rs:157-159, [set_header]; 92-94, [set_id]. *)
Definition packet_set_header := with_header.
Definition packet_set_id (p : packet) (i : N) : packet :=
  let h := p_header p in
  with_header p (mkheader i (hflags h) (ques_count h) (ans_count h) (auth_count h) (add_count h)).

(** packet.rs:165-167, [questions_mut]: the caller may leave any vector behind. *)
Definition packet_questions_mut (p : packet) (qs : list question) : packet :=
  mkPacket (p_header p) qs (p_answers p) (p_authorities p) (p_additionals p).

(** packet.rs:169-182: take, add, set of questions.  [+= 1] on u16. *)
Definition take_questions (p : packet) : list question * packet :=
  let h := p_header p in
  (p_questions p,
   mkPacket (with_counts h 0 (ans_count h) (auth_count h) (add_count h))
            [] (p_answers p) (p_authorities p) (p_additionals p)).
Definition add_question (c : cfg) (p : packet) (q : question) : res packet :=
  let h := p_header p in
  let! n := uadd c M16 (ques_count h) 1 in
  Ok (mkPacket (with_counts h n (ans_count h) (auth_count h) (add_count h))
               (p_questions p ++ [q]) (p_answers p) (p_authorities p) (p_additionals p)).
Definition set_questions (p : packet) (qs : list question) : packet :=
  let h := p_header p in
  mkPacket (with_counts h (len16 (length qs)) (ans_count h) (auth_count h) (add_count h))
           qs (p_answers p) (p_authorities p) (p_additionals p).

(** packet.rs:188-201: answers. *)
Definition take_answers (p : packet) : list rr * packet :=
  let h := p_header p in
  (p_answers p,
   mkPacket (with_counts h (ques_count h) 0 (auth_count h) (add_count h))
            (p_questions p) [] (p_authorities p) (p_additionals p)).
Definition add_answer (c : cfg) (p : packet) (r : rr) : res packet :=
  let h := p_header p in
  let! n := uadd c M16 (ans_count h) 1 in
  Ok (mkPacket (with_counts h (ques_count h) n (auth_count h) (add_count h))
               (p_questions p) (p_answers p ++ [r]) (p_authorities p) (p_additionals p)).
Definition set_answers (p : packet) (rs : list rr) : packet :=
  let h := p_header p in
  mkPacket (with_counts h (ques_count h) (len16 (length rs)) (auth_count h) (add_count h))
           (p_questions p) rs (p_authorities p) (p_additionals p).

(** packet.rs:207-220: authorities.  [take_authorities] resets [ans_count] (208). *)
Definition take_authorities (p : packet) : list rr * packet :=
  let h := p_header p in
  (p_authorities p,
   mkPacket (with_counts h (ques_count h) 0 (auth_count h) (add_count h))
            (p_questions p) (p_answers p) [] (p_additionals p)).
Definition add_authority (c : cfg) (p : packet) (r : rr) : res packet :=
  let h := p_header p in
  let! n := uadd c M16 (auth_count h) 1 in
  Ok (mkPacket (with_counts h (ques_count h) (ans_count h) n (add_count h))
               (p_questions p) (p_answers p) (p_authorities p ++ [r]) (p_additionals p)).
Definition set_authorities (p : packet) (rs : list rr) : packet :=
  let h := p_header p in
  mkPacket (with_counts h (ques_count h) (ans_count h) (len16 (length rs)) (add_count h))
           (p_questions p) (p_answers p) rs (p_additionals p).

(** packet.rs:226-239: additionals. *)
Definition take_additionals (p : packet) : list rr * packet :=
  let h := p_header p in
  (p_additionals p,
   mkPacket (with_counts h (ques_count h) (ans_count h) (auth_count h) 0)
            (p_questions p) (p_answers p) (p_authorities p) []).
Definition add_additional (c : cfg) (p : packet) (r : rr) : res packet :=
  let h := p_header p in
  let! n := uadd c M16 (add_count h) 1 in
  Ok (mkPacket (with_counts h (ques_count h) (ans_count h) (auth_count h) n)
               (p_questions p) (p_answers p) (p_authorities p) (p_additionals p ++ [r])).
Definition set_additionals (p : packet) (rs : list rr) : packet :=
  let h := p_header p in
  mkPacket (with_counts h (ques_count h) (ans_count h) (auth_count h) (len16 (length rs)))
           (p_questions p) (p_answers p) (p_authorities p) rs.

(** packet.rs:96-151: the flag setters and getters delegate to the header. *)
Definition packet_set_flag (f : header -> header) (p : packet) : packet := with_header p (f (p_header p)).

(** One section written with [bin.extend_from_slice(&x.to_bytes())]. *)
Fixpoint concat_res {A} (f : A -> res bytes) (l : list A) : res bytes :=
  match l with
  | [] => Ok []
  | x :: l' => let! b := f x in let! rest := concat_res f l' in Ok (b ++ rest)
  end.
Fixpoint sum_res {A} (f : A -> res nat) (l : list A) : res nat :=
  match l with
  | [] => Ok 0%nat
  | x :: l' => let! n := f x in let! rest := sum_res f l' in Ok (n + rest)%nat
  end.

(** packet.rs:265-280, [byte_size]. *)
Definition packet_byte_size (c : cfg) (p : packet) : res nat :=
  let! a := sum_res (rr_byte_size c) (p_answers p) in
  let! n := sum_res (rr_byte_size c) (p_authorities p) in
  let! d := sum_res (rr_byte_size c) (p_additionals p) in
  Ok (HEADER_SIZE + fold_right (fun q k => question_byte_size q + k)%nat 0%nat (p_questions p)
      + a + n + d)%nat.

(** packet.rs:298-313: the header bytes with the four counts overwritten in place. *)
Definition patched_header (p : packet) : bytes :=
  firstn 4 (header_to_bytes (p_header p))
  ++ be 2 (len16 (length (p_questions p))) ++ be 2 (len16 (length (p_answers p)))
  ++ be 2 (len16 (length (p_authorities p))) ++ be 2 (len16 (length (p_additionals p)))
  ++ skipn 12 (header_to_bytes (p_header p)).

(** packet.rs:282-329, [to_bytes]; 283-295 compute the capacity with [byte_size]. *)
Definition packet_to_bytes (c : cfg) (p : packet) : res bytes :=
  let! _ := packet_byte_size c p in
  let! a := concat_res (rr_to_bytes c) (p_answers p) in
  let! n := concat_res (rr_to_bytes c) (p_authorities p) in
  let! d := concat_res (rr_to_bytes c) (p_additionals p) in
  Ok (patched_header p ++ flat_map (question_to_bytes c) (p_questions p) ++ a ++ n ++ d).

(** packet.rs:247-258: one section of the compressed form; [bin] is everything written so far. *)
Fixpoint questions_compressed (c : cfg) (h : hasher) (qs : list question) (bin : bytes) (m : names)
  : bytes * names :=
  match qs with
  | [] => (bin, m)
  | q :: qs' =>
    let '(b, m') := question_to_bytes_compressed c h q m (length bin) in
    questions_compressed c h qs' (bin ++ b) m'
  end.
Fixpoint records_compressed (c : cfg) (h : hasher) (rs : list rr) (bin : bytes) (m : names)
  : res (bytes * names) :=
  match rs with
  | [] => Ok (bin, m)
  | r :: rs' =>
    let! bm := rr_to_bytes_compressed c h r m (length bin) in
    records_compressed c h rs' (bin ++ fst bm) (snd bm)
  end.

(** packet.rs:242-261, [to_bytes_compressed]: the header is written as it is. *)
Definition packet_to_bytes_compressed (c : cfg) (h : hasher) (p : packet) : res bytes :=
  let '(b0, m0) := questions_compressed c h (p_questions p) (header_to_bytes (p_header p)) [] in
  let! s1 := records_compressed c h (p_answers p) b0 m0 in
  let! s2 := records_compressed c h (p_authorities p) (fst s1) (snd s1) in
  let! s3 := records_compressed c h (p_additionals p) (fst s2) (snd s2) in
  Ok (fst s3).

(** packet.rs:345-380, [TryFrom<&mut DnsBuffer> for Packet]. *)
Definition packet_try_from_buf (c : cfg) : P packet :=
  h <- header_try_from ;;
  qs <- repeatP (N.to_nat (ques_count h)) (question_try_from c) ;;
  an <- repeatP (N.to_nat (ans_count h)) (rr_try_from c) ;;
  au <- repeatP (N.to_nat (auth_count h)) (rr_try_from c) ;;
  ad <- repeatP (N.to_nat (add_count h)) (rr_try_from c) ;;
  ret (mkPacket h qs an au ad).

(** packet.rs:332-340, [TryFrom<&[u8]> for Packet]. *)
Definition packet_try_from (c : cfg) (d : bytes) : res packet :=
  fst (packet_try_from_buf c (buf_from d)).

(** ** resource_record_set.rs *)

(** resource_record_set.rs:12-28. *)
Record rrset := mkRRset { set_name : fqdn; set_type : rtype; set_class : rclass; set_ttl : N;
                          set_records : list rdata }.

(** resource_record_set.rs:75-80. *)
Definition rrset_byte_size (c : cfg) (s : rrset) : res nat :=
  sum_res (fun d => let! n := rdata_byte_size c d in Ok (fqdn_byte_size (set_name s) + 10 + n)%nat)
          (set_records s).

(** Lexicographic order of byte strings: [Ord for Vec<u8>]. *)
Fixpoint bytes_cmp (a b : bytes) : comparison :=
  match a, b with
  | [], [] => Eq
  | [], _ => Lt
  | _, [] => Gt
  | x :: a', y :: b' => match x ?= y with Eq => bytes_cmp a' b' | o => o end
  end.

(** [slice::binary_search]: the standard library documents only the contract (any matching index
    may be returned if there are several), so it is a parameter; see DESIGN.md. *)
Definition bsearch := list bytes -> bytes -> nat + nat.   (* inl = Ok(index), inr = Err(index) *)
Definition search_pos (s : bsearch) (l : list bytes) (x : bytes) : nat :=
  match s l x with inl i => i | inr i => i end.
(** [Vec::insert]. *)
Definition insert_at {X} (i : nat) (x : X) (l : list X) : list X := firstn i l ++ x :: skipn i l.

(** resource_record_set.rs:95-102. *)
Fixpoint sorted_records (c : cfg) (s : bsearch) (ds : list rdata) (acc : list bytes) : res (list bytes) :=
  match ds with
  | [] => Ok acc
  | d :: ds' =>
    let! b := rdata_to_bytes c d in
    let i := search_pos s acc b in
    if (length acc <? i)%nat then Panic           (* Vec::insert asserts index <= len *)
    else sorted_records c s ds' (insert_at i b acc)
  end.

(** resource_record_set.rs:106-113. *)
Definition set_member_bytes (s : rrset) (b : bytes) : bytes :=
  fqdn_to_bytes (set_name s) ++ be 2 (rtype_code (set_type s)) ++ be 2 (rclass_code (set_class s))
  ++ be 4 (set_ttl s) ++ be 2 (len16 (length b)) ++ b.

(** resource_record_set.rs:82-116. *)
Definition rrset_to_bytes (c : cfg) (bs : bsearch) (s : rrset) : res bytes :=
  let! l := sorted_records c bs (set_records s) [] in
  Ok (flat_map (set_member_bytes s) l).
