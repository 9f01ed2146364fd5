(** * The remaining small functions of the API. *)
From Verif Require Import Base Buffer Fqdn Header Types RDataBasic Bitmap Svcb RDataSec RData Packet.

(** ** error.rs *)
(** error.rs:81-85, [Error::source]. *)
Definition error_source (e : dns_error) : option dns_error := Some e.
(** error.rs:93-97, [From<TryFromSliceError>].  The only conversions of slices to arrays are those of [extract_bytes] and of the fixed-size
    data, on slices of the right length; they cannot fail. *)
Definition error_from_slice_error : dns_error := InvalidPacketData.

(** ** fqdn.rs *)
(** fqdn.rs:127-131, [From<&str>]. *)
Definition fqdn_from_str (s : bytes) : fqdn := fqdn_new s.
(** fqdn.rs:133-141, [From<&[&str]>]. *)
Definition fqdn_from_strs (l : list bytes) : fqdn := map (fun s => s) l.
(** fqdn.rs:143-147, [From<Vec<Vec<u8>>>]; 149-155, [From<&[Vec<u8>]>]. *)
Definition fqdn_from_vec (l : list bytes) : fqdn := l.
Definition fqdn_from_slice (l : list bytes) : fqdn := l.
(** fqdn.rs:51-54, [iter]; 100-107 and 109-116, [into_iter]: what the iterator yields. *)
Definition fqdn_iter (f : fqdn) : list bytes := f.
Definition fqdn_into_iter (f : fqdn) : list bytes := f.
(** fqdn.rs:56-59, [iter_mut]; 118-125: the caller replaces each label by any octets. *)
Definition fqdn_iter_mut (g : nat -> bytes -> bytes) (f : fqdn) : fqdn :=
  map (fun p => g (fst p) (snd p)) (combine (seq 0 (length f)) f).
(** fqdn.rs:157-163, [TryFrom<&mut DnsBuffer>]. *)
Definition fqdn_try_from : P fqdn := extract_fqdn.

(** ** header.rs:173-176 and 190-199 *)
Definition header_byte_size (h : header) : nat := HEADER_SIZE.
Definition header_byte_size_compressed (h : header) (m : names) (off : nat) : nat := header_byte_size h.
Definition header_to_bytes_compressed (h : header) (m : names) (off : nat) : bytes := header_to_bytes h.

(** ** resource.rs:260-268 *)
Definition rtype_byte_size (t : rtype) : nat := 2.
Definition rtype_to_bytes (t : rtype) : bytes := be 2 (rtype_code t).

(** ** packet.rs:88-90, 153-155, 161-163, 184-186, 203-205, 222-224: the getters *)
Definition packet_id (p : packet) : N := id (p_header p).
Definition packet_header (p : packet) : header := p_header p.
Definition packet_questions (p : packet) : list question := p_questions p.
Definition packet_answers (p : packet) : list rr := p_answers p.
Definition packet_authorities (p : packet) : list rr := p_authorities p.
Definition packet_additionals (p : packet) : list rr := p_additionals p.

(** ** buffer.rs:177-180, [as_slice] *)
Definition buf_as_slice (b : buf) : bytes := data b.
