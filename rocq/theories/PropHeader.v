(** * Properties C16 - C18: the header *)
From Verif Require Import Base Buffer Header BaseFacts BufferFacts HeaderSpec HeaderFacts.
From Coq Require Import Lia ZifyBool ZifyNat ZifyN.

Definition ex_header_bytes : bytes := [18; 52; 133; 131; 0; 1; 0; 2; 0; 3; 1; 4].

(** ** C16 *)
(** Any twelve octets, anywhere in a message: parsing succeeds, reads exactly them, shows the fields
    RFC 1035 assigns to them, and serialising gives them back. *)
Theorem C16_bytes_roundtrip : forall (bs pre suf : bytes), byte_list bs -> length bs = 12%nat ->
  exists h, header_try_from (mkbuf (pre ++ bs ++ suf) (length pre)) =
              (Ok h, mkbuf (pre ++ bs ++ suf) (length pre + 12)) /\
            header_to_bytes h = bs /\ view h = fields_of bs.
Proof.
  intros bs pre suf HB HL. destruct (header_of_bytes bs HB HL) as (h & T & E). exists h.
  pose proof (reads_header h pre suf T) as R. unfold reads in R. rewrite E, HL in R.
  split; [exact R|]. split; [exact E|]. rewrite <- E. symmetry. apply fields_view, T.
Qed.
Theorem C16_header_roundtrip : forall (h : header) (pre suf : bytes), header_typed h ->
  header_try_from (mkbuf (pre ++ header_to_bytes h ++ suf) (length pre)) =
    (Ok h, mkbuf (pre ++ header_to_bytes h ++ suf) (length pre + 12)) /\
  length (header_to_bytes h) = 12%nat /\ fields_of (header_to_bytes h) = view h.
Proof.
  intros h pre suf T. pose proof (reads_header h pre suf T) as R. unfold reads in R. rewrite header_length in R.
  split; [exact R|]. split; [apply header_length|apply fields_view, T].
Qed.
(** Fewer than twelve octets are rejected. *)
Theorem C16_short_rejected : forall (bs : bytes), (length bs < 12)%nat ->
  fst (header_try_from (buf_from bs)) = Err LengthViolation.
Proof.
  intros bs H. do 12 (destruct bs as [|? bs]; [reflexivity|]). cbn [length] in H. lia.
Qed.
Example C16_ex : byte_list ex_header_bytes /\ length ex_header_bytes = 12%nat /\
  fields_of ex_header_bytes = mkview 4660 true 0 true false true true 0 3 1 2 3 260.
Proof. repeat split. repeat constructor. Qed.
Example C16_ex_typed : header_typed (header_new_query 65535 true).
Proof. repeat split. Qed.
Print Assumptions C16_bytes_roundtrip.
Print Assumptions C16_header_roundtrip.
Print Assumptions C16_short_rejected.

(** ** C17 *)
Theorem C17_setter : forall (s : setter) (h : header), view (call_setter s h) = apply_setter s (view h).
Proof. exact view_setter. Qed.
Theorem C17_history : forall (ss : list setter) (h : header),
  view (fold_left (fun h s => call_setter s h) ss h) = fold_left (fun v s => apply_setter s v) ss (view h).
Proof. exact view_history. Qed.
Theorem C17_enum_getters : forall (h : header) (o : opcode) (r : response_code),
  header_opcode (set_opcode h o) = o /\ header_response_code (set_response_code h r) = Ok r.
Proof. intros h o r. split; [apply opcode_set|apply rcode_set]. Qed.
Theorem C17_setters_keep_range : forall (s : setter) (h : header), header_typed h -> header_typed (call_setter s h).
Proof. exact setter_typed. Qed.
Theorem C17_constructors : forall (i : N) (rdsr : bool) (o : opcode),
  view (header_new_query i rdsr) = mkview i false 0 false false rdsr false 0 0 0 0 0 0 /\
  view (header_new_reply i o) = mkview i true (opcode_code o) false false false false 0 0 0 0 0 0.
Proof. intros i rdsr o. split; [destruct rdsr; reflexivity|destruct o; reflexivity]. Qed.
Example C17_ex : view (set_query_response (set_response_code (header_new_query 7 true) Refused) false) =
  mkview 7 false 0 false false true false 0 0 0 0 0 0.
Proof. reflexivity. Qed.
Print Assumptions C17_setter.
Print Assumptions C17_history.
Print Assumptions C17_enum_getters.
Print Assumptions C17_setters_keep_range.
Print Assumptions C17_constructors.

(** ** C18: false as stated *)
Theorem C18_response_code_refuted : exists (bs : bytes) (h : header), byte_list bs /\ length bs = 12%nat /\
  header_try_from (buf_from bs) = (Ok h, mkbuf bs 12) /\ header_response_code h = Panic.
Proof.
  exists [0;0;128;11;0;0;0;0;0;0;0;0], (mkheader 0 (mkflags 2944) 0 0 0 0).
  repeat split. repeat constructor.
Qed.
(** It panics exactly for the codes 11..15; the other getters always return. *)
Theorem C18_panics_iff_partial : forall h : header,
  header_response_code h = Panic <-> 11 <= v_rcode (view h) <= 15.
Proof.
  intros h. cbn [view v_rcode].
  assert (L : rcode (hflags h) < 16) by (apply (N.mod_lt _ 16); lia).
  unfold header_response_code. generalize dependent (rcode (hflags h)). intros n L.
  assert (C : forallb (fun n => match response_code_try_from n with Err _ => 11 <=? n | Ok _ => n <? 11 | _ => false end)
                      (map N.of_nat (seq 0 16)) = true) by reflexivity.
  rewrite forallb_forall in C. specialize (C n).
  assert (I : In n (map N.of_nat (seq 0 16))).
  { apply in_map_iff. exists (N.to_nat n). split; [lia|]. apply in_seq. lia. }
  specialize (C I). destruct (response_code_try_from n) eqn:E; try discriminate C.
  - split; [discriminate|lia].
  - split; [lia|reflexivity].
Qed.
Example C18_ex : header_response_code (set_response_code header_default NotZone) = Ok NotZone.
Proof. reflexivity. Qed.
Print Assumptions C18_response_code_refuted.
Print Assumptions C18_panics_iff_partial.
