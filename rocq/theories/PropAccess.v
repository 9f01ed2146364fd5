(** * Sizes announced for compressed forms (C96); what accessors answer (C97). *)
From Coq Require Import Lia ZifyBool ZifyNat ZifyN.
From Verif Require Import Base Buffer Fqdn Header Types RDataBasic Bitmap Svcb RDataSec RData Packet Construct Misc Sha BaseFacts
  HeaderSpec HeaderFacts NameSpec FqdnFacts RDataSpec WireSpec WireFacts FieldFacts SvcbParse BufferFacts AnnounceFacts PropName PropRecord PropPacket PropField PropRsa.

From Verif Require PatchFacts.

(** ** C96 *)
(** [s] is what the size function returns and leaves in the dictionary, [b] what the writer does. *)
Definition agrees (s : nat * names) (b : bytes * names) : Prop :=
  fst s = length (fst b) /\ forall k, names_get k (snd s) = None <-> names_get k (snd b) = None.
(** The octets announced for the name and the data that are compressed are those written, whatever the
    dictionary and the place, and the same names are known afterwards.  [h]: the hash function. *)
Theorem C96_parts_partial : forall (c : cfg) (h : hasher) (m : names) (off : nat),
  (forall x, name_byte_size_compressed h x m off = (length (fst (name_to_bytes_compressed h x m off)), snd (name_to_bytes_compressed h x m off))) /\
  (forall x, agrees (minfo_byte_size_compressed h x m off) (minfo_to_bytes_compressed h x m off)) /\
  (forall x, agrees (mx_byte_size_compressed h x m off) (mx_to_bytes_compressed h x m off)) /\
  (forall x, agrees (naptr_byte_size_compressed h x m off) (naptr_to_bytes_compressed h x m off)) /\
  (forall x, agrees (soa_byte_size_compressed h x m off) (soa_to_bytes_compressed h x m off)) /\
  (forall x, agrees (srv_byte_size_compressed h x m off) (srv_to_bytes_compressed h x m off)) /\
  (forall x, sorted_by rtype_code (ns_types x) ->
     exists s b, nsec_byte_size_compressed c h x m off = Ok s /\ nsec_to_bytes_compressed c h x m off = Ok b /\ agrees s b) /\
  (forall q, agrees (question_byte_size_compressed h q m off) (question_to_bytes_compressed c h q m off)).
Proof.
  intros c h m off. split; [exact (fun x => compressed_size h x m off)|]. split; [exact (fun x => minfo_announced h x m off)|].
  split; [exact (fun x => mx_announced h x m off)|]. split; [exact (fun x => naptr_announced h x m off)|].
  split; [exact (fun x => soa_announced h x m off)|]. split; [exact (fun x => srv_announced h x m off)|].
  split; [exact (fun x => nsec_announced c h x m off)|]. exact (fun q => question_announced c h q m m off off (same_keys_refl m)).
Qed.
(** A record: the size is returned exactly if the record can be written. *)
Theorem C96_record_partial : forall (c : cfg) (h : hasher) (r : rr) (m : names) (off : nat),
  match rr_to_bytes_compressed c h r m off with
  | Ok b => exists s, rr_byte_size_compressed c h r m off = Ok s /\ agrees s b
  | Err e => rr_byte_size_compressed c h r m off = Err e
  | Panic => rr_byte_size_compressed c h r m off = Panic
  | Diverge => rr_byte_size_compressed c h r m off = Diverge
  end.
Proof.
  intros c h r m off. pose proof (rr_announced c h r m m off off (same_keys_refl m)) as A.
  destruct (rr_byte_size_compressed c h r m off), (rr_to_bytes_compressed c h r m off); cbn [told] in A; try contradiction; try congruence.
  eexists. split; [reflexivity|exact A].
Qed.
(** The sizes of all parts of a packet, asked for in the order they are written, each at the place where
    the part begins and with the dictionary the one before left, add up to the octets of the message. *)
Theorem C96_packet : forall (c : cfg) (h : hasher) (p : packet),
  packet_size c h p = match packet_to_bytes_compressed c h p with Ok out => Ok (length out) | Err e => Err e | Panic => Panic | Diverge => Diverge end.
Proof. exact packet_announced. Qed.
(** False: that the dictionary is left as the writer leaves it.  The exchange of an MX record is entered two octets before
    its place, the second name of SOA and MINFO data and the names in the data of a record at the place of the first. *)
Theorem C96_offsets_refuted : exists (h : hasher) (f g : fqdn), let k := h [[99]] in
  names_get k (snd (mx_byte_size_compressed h (mkMx 5 f) [] 30)) = Some 34%nat /\
  names_get k (snd (mx_to_bytes_compressed h (mkMx 5 f) [] 30)) = Some 36%nat /\
  names_get k (snd (minfo_byte_size_compressed h (mkMinfo g f) [] 30)) = Some 34%nat /\
  names_get k (snd (minfo_to_bytes_compressed h (mkMinfo g f) [] 30)) = Some 37%nat /\
  names_get k (snd (soa_byte_size_compressed h (mkSoa g f 1 2 3 4 5) [] 30)) = Some 34%nat /\
  names_get k (snd (soa_to_bytes_compressed h (mkSoa g f 1 2 3 4 5) [] 30)) = Some 37%nat /\
  (let! s := rr_byte_size_compressed ex_cfg h (rr_new g NS CIN 60 (DNS f)) [] 30 in Ok (names_get k (snd s))) = Ok (Some 34%nat) /\
  (let! s := rr_to_bytes_compressed ex_cfg h (rr_new g NS CIN 60 (DNS f)) [] 30 in Ok (names_get k (snd s))) = Ok (Some 47%nat).
Proof. exists ex_hash, [[97]; [98]; [99]], [[100]]. vm_compute. repeat split; reflexivity. Qed.
Example C96_ex : packet_size ex_cfg ex_hash ex_packet = Ok (length (ex_bytes (packet_to_bytes_compressed ex_cfg ex_hash ex_packet))) /\
  (length (ex_bytes (packet_to_bytes_compressed ex_cfg ex_hash ex_packet)) < length (ex_bytes (packet_to_bytes ex_cfg ex_packet)))%nat /\
  sorted_by rtype_code [A; MX].
Proof. split; [vm_compute; reflexivity|]. split; [apply Nat.ltb_lt; vm_compute; reflexivity|]. repeat constructor. Qed.
Print Assumptions C96_parts_partial.
Print Assumptions C96_record_partial.
Print Assumptions C96_packet.
Print Assumptions C96_offsets_refuted.

(** ** C97 *)
(** A parsed packet: the ID is the first two octets, the header the first twelve, and each section has
    as many entries as the header says. *)
Theorem C97_packet : forall (c : cfg) (d : bytes) (p : packet), byte_list d -> packet_try_from c d = Ok p ->
  packet_id p = nth 0 d 0 * 256 + nth 1 d 0 /\ view (packet_header p) = fields_of d /\
  N.of_nat (length (packet_questions p)) = nth 4 d 0 * 256 + nth 5 d 0 /\
  N.of_nat (length (packet_answers p)) = nth 6 d 0 * 256 + nth 7 d 0 /\
  N.of_nat (length (packet_authorities p)) = nth 8 d 0 * 256 + nth 9 d 0 /\
  N.of_nat (length (packet_additionals p)) = nth 10 d 0 * 256 + nth 11 d 0 /\
  exists e1 e2 e3 e, consecutive (question_at c d) 12 (packet_questions p) e1 /\ consecutive (record_at c d) e1 (packet_answers p) e2 /\
    consecutive (record_at c d) e2 (packet_authorities p) e3 /\ consecutive (record_at c d) e3 (packet_additionals p) e.
Proof.
  intros c d p B E. apply (packet_iff c d p B) in E. destruct E as (e & L & _ & _ & V & (Q & A & U & D) & e1 & e2 & e3 & H1 & H2 & H3 & H4).
  assert (F : fields_of (firstn 12 d) = fields_of d).
  { do 12 (destruct d as [|? d]; [cbn in L; lia|]). reflexivity. }
  rewrite F in V. unfold packet_id, packet_header, packet_questions, packet_answers, packet_authorities, packet_additionals.
  split; [exact (f_equal v_id V)|]. split; [exact V|].
  split; [exact Q|]. split; [exact A|]. split; [exact U|]. split; [exact D|]. exists e1, e2, e3, e. auto.
Qed.
(** Whatever is parsed, [as_slice] still gives the octets the buffer was made of. *)
Theorem C97_buffer : forall (c : cfg) (d : bytes), buf_as_slice (snd (packet_try_from_buf c (buf_from d))) = d.
Proof. intros c d. exact (proj1 (proj1 (PatchFacts.sw_packet (fun _ => False) c) (buf_from d))). Qed.
(** SVCB data are in alias mode exactly if the two octets of their priority are zero. *)
Theorem C97_mode : forall (c : cfg) (d : bytes) (q : nat) (x : svcb) (b : buf), byte_list d -> allocatable d -> (q <= length d)%nat ->
  svcb_try_from c (mkbuf d q) = (Ok x, b) ->
  (svcb_mode_of x = ModeAlias <-> nth q d 0 = 0 /\ nth (S q) d 0 = 0).
Proof.
  intros c d q x b B A L E. apply (C43_svcb_iff_partial c d q x b B A L) in E. destruct E as (k & ps & (h0 & h1 & E0 & _ & E1 & _ & EP) & _).
  unfold svcb_mode_of. rewrite EP. rewrite (nth_error_nth _ _ 0 E0).
  replace (S q) with (q + 1)%nat by lia. rewrite (nth_error_nth _ _ 0 E1).
  destruct (h0 * 256 + h1 =? 0) eqn:Z; split; try discriminate; intros; try reflexivity; lia.
Qed.
(** The length told for an algorithm is that of the digest which is signed, and for ED25519 that of a key (RFC 8080 section 3). *)
Theorem C97_len_partial : (forall m : bytes, salg_len RSA_SHA1 = Some (length (sha_1 m)) /\ salg_len DSA_SHA1 = Some (length (sha_1 m)) /\
    salg_len RSA_SHA256 = Some (length (sha_256 m))) /\
  salg_len RSA_MD5 = Some (128 / 8)%nat /\ salg_len RSA_SHA512 = Some (512 / 8)%nat /\ salg_len ED25519 = Some 32%nat /\
  (forall a, salg_len a = None <-> In a [ECDSA_P256; ECDSA_P384; Indirect; PrivateDns; PrivateOid]).
Proof.
  split; [|repeat split; try (intros E; destruct a; try discriminate E; cbn; tauto); cbn; intuition (subst; reflexivity)].
  intros m. rewrite (proj2 (sha_1_octets m)), (proj2 (sha_256_octets m)). repeat split; reflexivity.
Qed.
(** False for ED448: keys have 57 octets, signatures 114 (RFC 8080 sections 3 and 4); and neither curve of
    ECDSA has a length, though the digests of both have one. *)
Theorem C97_len_refuted : salg_len ED448 = Some 64%nat /\ salg_len ED448 <> Some 57%nat /\ salg_len ED448 <> Some 114%nat /\
  forall m, salg_len ECDSA_P256 <> Some (length (sha_256 m)).
Proof. repeat split; discriminate. Qed.
(** NSEC data made without types: the name, then a window of types in which there is none, which RFC 4034 section 4.1.2
    says must not be there. *)
Theorem C97_nsec_refuted : forall (c : cfg) (f : fqdn), nsec_to_bytes c (nsec_new f) = Ok (fqdn_to_bytes f ++ [0; 1; 0]).
Proof. intros c f. destruct c as [[|] [|] [|]]; reflexivity. Qed.
(** PTR data: the name that is read out is the one at their place in the message, and the one put in is written. *)
Theorem C97_ptr : forall (c : cfg) (d : bytes) (p : nat) (x : fqdn) (q : nat), byte_list d ->
  rdata_from c PTR (mkbuf d p) = (Ok (DPTR x), mkbuf d q) ->
  name_at d 191 p (ptr_inner x) q /\ name_at d 191 p (ptr_into_inner x) q /\
  forall f, rdata_to_bytes c (DPTR (ptr_inner_mut x f)) = Ok (fqdn_to_bytes f).
Proof.
  intros c d p x q B E. assert (N : name_at d 191 p x q).
  { apply (C07_extract_fqdn_iff d p x q B). cbn [rdata_from] in E; unfold pmap, bind, name_try_from in E; destruct (extract_fqdn (mkbuf d p)) as [[y| | |] b]; unfold ret in E; congruence. }
  split; [exact N|]. split; [exact N|]. reflexivity.
Qed.
(** The forms of header and type that take part in compression are those without it. *)
Theorem C97_fixed : (forall h m off, header_to_bytes_compressed h m off = header_to_bytes h /\
    header_byte_size h = length (header_to_bytes h) /\ header_byte_size_compressed h m off = length (header_to_bytes h)) /\
  (forall t, length (rtype_to_bytes t) = rtype_byte_size t /\
     rtype_to_bytes t = [rtype_code t / 256; rtype_code t mod 256]).
Proof.
  split.
  - intros h m off. rewrite header_length. repeat split; reflexivity.
  - intros t. split; [reflexivity|]. destruct t; reflexivity.
Qed.
Example C97_ex : (exists p, packet_try_from ex_cfg (ex_bytes (packet_to_bytes ex_cfg ex_packet)) = Ok p /\ (0 < length (packet_answers p))%nat) /\
  (exists x b, svcb_try_from ex_cfg (mkbuf [0; 0; 1; 97; 0] 0) = (Ok x, b) /\ svcb_mode_of x = ModeAlias) /\
  (exists x b, svcb_try_from ex_cfg (mkbuf [1; 0; 1; 97; 0] 0) = (Ok x, b) /\ svcb_mode_of x = ModeService) /\
  exists x, rdata_from ex_cfg PTR (mkbuf [1; 98; 0; 1; 97; 192; 0] 3) = (Ok (DPTR x), mkbuf [1; 98; 0; 1; 97; 192; 0] 7).
Proof.
  split; [eexists; split; [vm_compute; reflexivity|apply Nat.ltb_lt; vm_compute; reflexivity]|].
  split; [do 2 eexists; split; vm_compute; reflexivity|]. split; [do 2 eexists; split; vm_compute; reflexivity|].
  eexists. vm_compute. reflexivity.
Qed.
Print Assumptions C97_packet.
Print Assumptions C97_buffer.
Print Assumptions C97_mode.
Print Assumptions C97_len_partial.
Print Assumptions C97_len_refuted.
Print Assumptions C97_nsec_refuted.
Print Assumptions C97_ptr.
Print Assumptions C97_fixed.
