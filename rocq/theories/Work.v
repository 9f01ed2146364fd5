(** * The work of compressing.

    The compressing writers once more, keeping a list of what they hand to the hash function (fqdn.rs:200, 222: every tail of a name until one is
    known).  All other work of a writer is copying what it returns, a fixed number of times. *)
From Verif Require Import Base Buffer Fqdn Header Types RDataBasic Bitmap Svcb RDataSec RData Packet.

(** fqdn.rs:217-241. *)
Fixpoint fqdn_hashed (h : hasher) (f : fqdn) (m : names) (offset : nat) : list fqdn :=
  match f with
  | [] => []
  | l :: f' =>
    f :: match names_get (h f) m with
         | Some _ => []
         | None => fqdn_hashed h f' (names_insert (h f) offset m) (offset + (length l + 1))
         end
  end.
(** minfo.rs:78-88, soa.rs:118-130: the second name starts where the first ends. *)
Definition two_hashed (h : hasher) (f g : fqdn) (m : names) (off : nat) : list fqdn :=
  fqdn_hashed h f m off ++ (let '(b, m1) := fqdn_to_bytes_compressed h f m off in fqdn_hashed h g m1 (off + length b)).
(** rdata/mod.rs:326-376, and the writers of the types named there. *)
Definition rdata_hashed (h : hasher) (d : rdata) (m : names) (off : nat) : list fqdn :=
  match d with
  | DNS x | DCNAME x | DPTR x => fqdn_hashed h x m off
  | DSOA x => two_hashed h (soa_mname x) (soa_rname x) m off
  | DMINFO x => two_hashed h (minfo_r x) (minfo_e x) m off
  | DMX x => fqdn_hashed h (mx_exchange x) m (off + 2)
  | DSRV x => fqdn_hashed h (srv_target x) m (off + 6)
  | DNAPTR x => fqdn_hashed h (na_repl x) m (off + length (naptr_fixed_bytes x))
  | DNSEC x => fqdn_hashed h (ns_next x) m off
  | _ => []
  end.
(** question.rs:372-387. *)
Definition question_hashed (h : hasher) (q : question) (m : names) (off : nat) : list fqdn := fqdn_hashed h (q_name q) m off.
(** resource.rs:465-496. *)
Definition rr_hashed (h : hasher) (r : rr) (m : names) (off : nat) : list fqdn :=
  fqdn_hashed h (rr_name r) m off
  ++ (let '(b, m1) := fqdn_to_bytes_compressed h (rr_name r) m off in rdata_hashed h (rr_data r) m1 (off + (length b + 8) + 2)).
(** packet.rs:242-261. *)
Fixpoint questions_hashed (c : cfg) (h : hasher) (qs : list question) (bin : bytes) (m : names) : list fqdn :=
  match qs with
  | [] => []
  | q :: qs' =>
    question_hashed h q m (length bin)
    ++ (let '(b, m') := question_to_bytes_compressed c h q m (length bin) in questions_hashed c h qs' (bin ++ b) m')
  end.
Fixpoint records_hashed (c : cfg) (h : hasher) (rs : list rr) (bin : bytes) (m : names) : list fqdn :=
  match rs with
  | [] => []
  | r :: rs' =>
    rr_hashed h r m (length bin)
    ++ match rr_to_bytes_compressed c h r m (length bin) with
       | Ok (b, m') => records_hashed c h rs' (bin ++ b) m'
       | _ => []
       end
  end.
Definition section_hashed (c : cfg) (h : hasher) (rs : list rr) (s : res (bytes * names)) : list fqdn :=
  match s with Ok (bin, m) => records_hashed c h rs bin m | _ => [] end.
Definition packet_hashed (c : cfg) (h : hasher) (p : packet) : list fqdn :=
  let s0 := questions_compressed c h (p_questions p) (header_to_bytes (p_header p)) [] in
  let s1 := records_compressed c h (p_answers p) (fst s0) (snd s0) in
  let s2 := let! s := s1 in records_compressed c h (p_authorities p) (fst s) (snd s) in
  questions_hashed c h (p_questions p) (header_to_bytes (p_header p)) []
  ++ section_hashed c h (p_answers p) (Ok s0) ++ section_hashed c h (p_authorities p) s1 ++ section_hashed c h (p_additionals p) s2.

(** What hashing a list of labels reads: their number, and for each its length and its octets (util.rs:8-14; usize has eight octets). *)
Definition hash_octets (f : fqdn) : N := fold_right (fun l n => 8 + N.of_nat (length l) + n) 8 f.
Definition total_octets (fs : list fqdn) : N := fold_right (fun f n => hash_octets f + n) 0 fs.
