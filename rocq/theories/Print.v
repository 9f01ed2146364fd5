(** * What serialising prints (tsig.rs:109).

    The same writers as in RData.v and Packet.v, with the lines they write to standard output.  A line is represented by
    the octets it shows; its text is ["Test: {:?}"] of them. *)
From Verif Require Import Base Buffer Fqdn Header Types RDataBasic Bitmap Svcb RDataSec RData Packet.

(** The argument says whether standard output can be written to; [println!] panics otherwise. *)
Definition W (A : Type) : Type := bool -> list bytes * res A.
Definition wpure {A} (r : res A) : W A := fun _ => ([], r).
Definition wbind {A B} (m : W A) (k : A -> W B) : W B := fun o =>
  match m o with
  | (l, Ok a) => let '(l', r) := k a o in (l ++ l', r)
  | (l, Err e) => (l, Err e)
  | (l, Panic) => (l, Panic)
  | (l, Diverge) => (l, Diverge)
  end.
(** tsig.rs:109. *)
Definition say (line : bytes) : W unit := fun o => if o then ([line], Ok tt) else ([], Panic).

(** tsig.rs:107-120. *)
Definition tsig_to_bytes_w (x : tsig) : W bytes := wbind (say (fqdn_to_bytes (ts_alg x))) (fun _ => wpure (Ok (tsig_to_bytes x))).
(** mod.rs:277-324; no other variant prints. *)
Definition rdata_to_bytes_w (c : cfg) (d : rdata) : W bytes :=
  match d with DTSIG x => tsig_to_bytes_w x | _ => wpure (rdata_to_bytes c d) end.
(** mod.rs:327-377. *)
Definition rdata_to_bytes_compressed_w (c : cfg) (h : hasher) (d : rdata) (m : names) (off : nat) : W (bytes * names) :=
  match d with DTSIG x => wbind (tsig_to_bytes_w x) (fun b => wpure (Ok (b, m))) | _ => wpure (rdata_to_bytes_compressed c h d m off) end.

(** resource.rs:427-452. *)
Definition rr_to_bytes_w (c : cfg) (r : rr) : W bytes :=
  wbind (wpure (rr_byte_size c r)) (fun _ =>
  wbind (wpure (rdata_byte_size c (rr_data r))) (fun n =>
  wbind (rdata_to_bytes_w c (rr_data r)) (fun d =>
  wpure (Ok (fqdn_to_bytes (rr_name r) ++ be 2 (rtype_code (rr_type r)) ++ be 2 (rr_class_field c r)
      ++ be 4 (rr_ttl r) ++ be 2 (len16 n) ++ d))))).
(** resource.rs:465-495. *)
Definition rr_to_bytes_compressed_w (c : cfg) (h : hasher) (r : rr) (m : names) (off : nat) : W (bytes * names) :=
  let '(nb, m1) := fqdn_to_bytes_compressed h (rr_name r) m off in
  let buffer := nb ++ be 2 (rtype_code (rr_type r)) ++ be 2 (rr_class_field c r) ++ be 4 (rr_ttl r) in
  wbind (rdata_to_bytes_compressed_w c h (rr_data r) m1 (off + length buffer + 2)) (fun dm =>
  wpure (Ok (buffer ++ be 2 (len16 (length (fst dm))) ++ fst dm, snd dm))).

(** packet.rs:316-326. *)
Fixpoint concat_w {A} (f : A -> W bytes) (l : list A) : W bytes :=
  match l with
  | [] => wpure (Ok [])
  | x :: l' => wbind (f x) (fun b => wbind (concat_w f l') (fun rest => wpure (Ok (b ++ rest))))
  end.
(** packet.rs:282-329. *)
Definition packet_to_bytes_w (c : cfg) (p : packet) : W bytes :=
  wbind (wpure (packet_byte_size c p)) (fun _ =>
  wbind (concat_w (rr_to_bytes_w c) (p_answers p)) (fun a =>
  wbind (concat_w (rr_to_bytes_w c) (p_authorities p)) (fun n =>
  wbind (concat_w (rr_to_bytes_w c) (p_additionals p)) (fun d =>
  wpure (Ok (patched_header p ++ flat_map (question_to_bytes c) (p_questions p) ++ a ++ n ++ d)))))).
(** packet.rs:247-258. *)
Fixpoint records_compressed_w (c : cfg) (h : hasher) (rs : list rr) (bin : bytes) (m : names) : W (bytes * names) :=
  match rs with
  | [] => wpure (Ok (bin, m))
  | r :: rs' => wbind (rr_to_bytes_compressed_w c h r m (length bin)) (fun bm => records_compressed_w c h rs' (bin ++ fst bm) (snd bm))
  end.
(** packet.rs:242-261. *)
Definition packet_to_bytes_compressed_w (c : cfg) (h : hasher) (p : packet) : W bytes :=
  let '(b0, m0) := questions_compressed c h (p_questions p) (header_to_bytes (p_header p)) [] in
  wbind (records_compressed_w c h (p_answers p) b0 m0) (fun s1 =>
  wbind (records_compressed_w c h (p_authorities p) (fst s1) (snd s1)) (fun s2 =>
  wbind (records_compressed_w c h (p_additionals p) (fst s2) (snd s2)) (fun s3 =>
  wpure (Ok (fst s3))))).
