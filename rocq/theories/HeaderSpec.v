(** * Specification: the header as a set of independent fields (RFC 1035 section 4.1.1), and what each
    setter of the API is documented to do to them. *)
From Verif Require Import Base Header.

Record hview := mkview {
  v_id : N; v_qr : bool; v_opcode : N; v_aa : bool; v_tc : bool; v_rd : bool; v_ra : bool;
  v_z : N; v_rcode : N; v_qd : N; v_an : N; v_ns : N; v_ar : N }.

(** The fields of the twelve octets of a header. *)
Definition fields_of (b : bytes) : hview :=
  let oct i := nth i b 0 in
  let num i := oct i * 256 + oct (S i) in
  mkview (num 0%nat)
         (N.testbit (oct 2%nat) 7) (oct 2%nat / 8 mod 16) (N.testbit (oct 2%nat) 2)
         (N.testbit (oct 2%nat) 1) (N.testbit (oct 2%nat) 0)
         (N.testbit (oct 3%nat) 7) (oct 3%nat / 16 mod 8) (oct 3%nat mod 16)
         (num 4%nat) (num 6%nat) (num 8%nat) (num 10%nat).

(** The setters. *)
Inductive setter :=
| SetRecursionDesired (b : bool) | SetTruncation (b : bool) | SetAuthoritativeAnswer (b : bool)
| SetOpcode (o : opcode) | SetQueryResponse (b : bool) | SetResponseCode (r : response_code)
| SetRecursionAvailable (b : bool).

Definition is_noerror (r : response_code) : bool := match r with NoError => true | _ => false end.

Definition apply_setter (s : setter) (v : hview) : hview :=
  let '(mkview i qr op aa tc rd ra z rc qd an ns ar) := v in
  match s with
  | SetRecursionDesired b => mkview i qr op aa tc b ra z rc qd an ns ar
  | SetTruncation b => mkview i qr op aa b rd ra z rc qd an ns ar
  | SetAuthoritativeAnswer b => mkview i qr op b tc rd ra z rc qd an ns ar
  | SetOpcode o => mkview i qr (opcode_code o) aa tc rd ra z rc qd an ns ar
  | SetQueryResponse true => mkview i true op aa tc rd ra z rc qd an ns ar
  | SetQueryResponse false => mkview i false op aa tc rd false z 0 qd an ns ar
  | SetResponseCode r =>
      mkview i (if is_noerror r then qr else true) op aa tc rd ra z (response_code_code r) qd an ns ar
  | SetRecursionAvailable b => mkview i (if b then true else qr) op aa tc rd b z rc qd an ns ar
  end.

(** What the getters of the API show of a header (the opcode and the response code as raw numbers;
    the reserved bits [z] are private). *)
Definition view (h : header) : hview :=
  mkview (id h) (query_response h) (opcode_f (hflags h)) (authoritative_answer h) (truncation h)
         (recursion_desired h) (recursion_available h) (z (hflags h)) (rcode (hflags h))
         (ques_count h) (ans_count h) (auth_count h) (add_count h).

Definition call_setter (s : setter) (h : header) : header :=
  match s with
  | SetRecursionDesired b => set_recursion_desired h b
  | SetTruncation b => set_truncation h b
  | SetAuthoritativeAnswer b => set_authoritative_answer h b
  | SetOpcode o => set_opcode h o
  | SetQueryResponse b => set_query_response h b
  | SetResponseCode r => set_response_code h r
  | SetRecursionAvailable b => set_recursion_available h b
  end.

(** A header whose fields are in the ranges of their Rust types. *)
Definition header_typed (h : header) : Prop :=
  id h < 65536 /\ raw (hflags h) < 65536 /\ ques_count h < 65536 /\ ans_count h < 65536 /\
  auth_count h < 65536 /\ add_count h < 65536.
