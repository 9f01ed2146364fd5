(** * C88: the stores through a raw pointer *)
From Coq Require Import Lia ZifyBool ZifyNat ZifyN.
From Verif Require Import Base BaseFacts Buffer Fqdn Header HeaderFacts Types RDataBasic Bitmap Svcb RDataSec RData RDataReads Packet Unsafe PropRecord PropPacket.
Ltac Zify.zify_post_hook ::= Z.div_mod_to_equations.

Lemma memory_be e n : n < 65536 -> in_memory e (to_be e n) = be 2 n.
Proof. intros L. destruct e; cbn [in_memory to_be be app]; [f_equal; [|f_equal]; lia|reflexivity]. Qed.
Lemma len16_bound n : len16 n < 65536.
Proof. unfold len16, u16. apply N.mod_lt. lia. Qed.
Lemma len16_be n : be 2 (len16 n) = [N.of_nat n / 256 mod 256; N.of_nat n mod 256].
Proof. cbn [be app]. unfold len16, u16. f_equal; [|f_equal]; lia. Qed.
Lemma even_at base k : N.odd (base + 2 * k) = N.odd base.
Proof. rewrite N.odd_add_mul_2. reflexivity. Qed.
Lemma header_shape h : exists a b c d e f g i j k l m, header_to_bytes h = [a; b; c; d; e; f; g; i; j; k; l; m].
Proof. unfold header_to_bytes, flags_into_bytes. cbn [be app]. repeat eexists. Qed.
Lemma stores_header e base p : stored_header e base p = if N.odd base then None else Some (patched_header p).
Proof.
  unfold stored_header, patched_header, store_u16. rewrite !even_at. destruct (N.odd base); [reflexivity|].
  destruct (header_shape (p_header p)) as (x0 & x1 & x2 & x3 & x4 & x5 & x6 & x7 & x8 & x9 & x10 & x11 & ->).
  rewrite <- (memory_be e _ (len16_bound (length (p_questions p)))), <- (memory_be e _ (len16_bound (length (p_answers p)))),
    <- (memory_be e _ (len16_bound (length (p_authorities p)))), <- (memory_be e _ (len16_bound (length (p_additionals p)))).
  destruct e; reflexivity.
Qed.
Lemma at_spec e base c p :
  packet_to_bytes_at e base c p = if N.odd base && match packet_byte_size c p with Ok _ => true | _ => false end then None else Some (packet_to_bytes c p).
Proof.
  unfold packet_to_bytes_at, packet_to_bytes. destruct (packet_byte_size c p); cbn [rbind]; rewrite ?andb_false_r, ?andb_true_r; try reflexivity.
  rewrite stores_header. destruct (N.odd base); reflexivity.
Qed.

(** ** The property: false when the output lies at an odd address, which a vector of octets may *)
Theorem C88_odd_refuted : forall (e : endian) (c : cfg) (base : N), N.odd base = true -> packet_to_bytes_at e base c packet_default = None.
Proof. intros e c base O. rewrite at_spec, O. reflexivity. Qed.
(** Exactly then: undefined behaviour is met iff the address is odd and the sizes could be computed (the case that they cannot is C49). *)
Theorem C88_undefined_iff_partial : forall (e : endian) (c : cfg) (base : N) (p : packet),
  packet_to_bytes_at e base c p = None <-> N.odd base = true /\ exists n, packet_byte_size c p = Ok n.
Proof.
  intros e c base p. rewrite at_spec. destruct (N.odd base), (packet_byte_size c p) as [n|x| |]; cbn [andb]; split; try discriminate; intros H;
    try (destruct H as (H & m & E); discriminate); eauto.
Qed.
(** At even addresses the counts end up in network order on machines of both byte orders, nothing else is changed, and the stores stay inside
    the twelve octets of the header. *)
Theorem C88_even_partial : forall (e : endian) (c : cfg) (base : N) (p : packet), N.odd base = false ->
  packet_to_bytes_at e base c p = Some (packet_to_bytes c p).
Proof. intros e c base p O. rewrite at_spec, O. reflexivity. Qed.
Theorem C88_inside_partial : forall (e : endian) (base : N) (p : packet) (bs : bytes), stored_header e base p = Some bs ->
  length bs = 12%nat /\ firstn 4 bs = firstn 4 (header_to_bytes (p_header p))
  /\ skipn 4 bs = flat_map (fun n => [N.of_nat n / 256 mod 256; N.of_nat n mod 256])
       [length (p_questions p); length (p_answers p); length (p_authorities p); length (p_additionals p)].
Proof.
  intros e base p bs. rewrite stores_header. destruct (N.odd base); [discriminate|]. intros E. assert (bs = patched_header p) as -> by congruence. clear E.
  unfold patched_header. destruct (header_shape (p_header p)) as (x0 & x1 & x2 & x3 & x4 & x5 & x6 & x7 & x8 & x9 & x10 & x11 & ->).
  split; [reflexivity|]. split; [reflexivity|]. rewrite !len16_be. reflexivity.
Qed.
Print Assumptions C88_odd_refuted.
Print Assumptions C88_undefined_iff_partial.
Print Assumptions C88_even_partial.
Print Assumptions C88_inside_partial.

Example C88_ex : packet_to_bytes_at Little 4096 ex_cfg ex_packet = packet_to_bytes_at Big 4096 ex_cfg ex_packet
  /\ (exists bs, packet_to_bytes_at Big 4096 ex_cfg ex_packet = Some (Ok bs) /\ firstn 12 bs = [18; 52; 128; 0; 0; 1; 0; 2; 0; 0; 0; 1])
  /\ packet_to_bytes_at Little 4097 ex_cfg ex_packet = None.
Proof. split; [reflexivity|]. split; [eexists; split; reflexivity|reflexivity]. Qed.
