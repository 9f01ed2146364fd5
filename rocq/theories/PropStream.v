(** * Property C116: messages in a TCP stream arrive whole, however the stream is cut into pieces *)
From Coq Require Import Lia ZifyBool ZifyNat ZifyN.
From Verif Require Import Base Buffer Fqdn Header Types RDataBasic Svcb RDataSec RData Packet BaseFacts BufferFacts FqdnFacts CompressSpec ChunkFacts HeaderSpec CodeSpec RDataSpec RecordSpec RDataReads
  WireSpec WireFacts PacketFacts PacketProps SvcbParse PropName PropRecord PropPacket PropShift.

(** ** What a user of the buffer writes

    On TCP a message has its length, two octets, in front of it (RFC 1035 4.2.2).  C80 shows that such messages must not be parsed where they stand; the program
    below takes the octets of each message out and leaves them to [Packet::try_from(&[u8])].  It is not in the repository. *)
(** One message; if it has not arrived completely the cursor goes back. *)
Definition next_message : P (option bytes) := fun b =>
  match (n <- extract_u16 ;; extract_bytes (N.to_nat n)) b with
  | (Ok m, b') => (Ok (Some m), b')
  | (Err _, b') => (_ <- set_position (pos b) ;; ret None) b'
  | (Panic, b') => (Panic, b')
  | (Diverge, b') => (Diverge, b')
  end.
(** All that have arrived. *)
Fixpoint all_messages (fuel : nat) : P (list bytes) :=
  match fuel with
  | O => lift Diverge
  | S f => x <- next_message ;; match x with Some m => ms <- all_messages f ;; ret (m :: ms) | None => ret [] end
  end.
(** More octets arrive: they are put behind those that were left over. *)
Definition arrives (left piece : bytes) : res (list bytes * bytes) :=
  match all_messages (S (length (left ++ piece))) (buf_from (left ++ piece)) with
  | (Ok ms, b) => Ok (ms, skipn (pos b) (data b))
  | (Err e, _) => Err e
  | (Panic, _) => Panic
  | (Diverge, _) => Diverge
  end.
(** One piece after the other. *)
Fixpoint receive (left : bytes) (pieces : list bytes) : res (list bytes * bytes) :=
  match pieces with
  | [] => Ok ([], left)
  | x :: pieces' => let! a := arrives left x in let! z := receive (snd a) pieces' in Ok (fst a ++ fst z, snd z)
  end.

(** ** What is sent *)
Definition with_length (m : bytes) : bytes := be 2 (N.of_nat (length m)) ++ m.
Definition sendable (m : bytes) : Prop := N.of_nat (length m) <= 65535 /\ byte_list m.
(** The beginning of a message of which something is still to come. *)
Definition unfinished (rest : bytes) : Prop := exists m more, sendable m /\ with_length m = rest ++ more /\ more <> [].

Lemma next_whole pre m suf : sendable m ->
  next_message (mkbuf (pre ++ with_length m ++ suf) (length pre)) = (Ok (Some m), mkbuf (pre ++ with_length m ++ suf) (length pre + length (with_length m))).
Proof.
  intros (L & B). assert (R : reads pre suf (n <- extract_u16 ;; extract_bytes (N.to_nat n)) (with_length m) m).
  { eapply reads_bind; [apply reads_u16; lia|]. apply reads_bytes. lia. }
  unfold next_message. unfold reads in R. rewrite R. reflexivity.
Qed.
Lemma next_part pre rest : unfinished rest -> next_message (mkbuf (pre ++ rest) (length pre)) = (Ok None, mkbuf (pre ++ rest) (length pre)).
Proof.
  intros (m & more & (L & B) & E & NE). unfold next_message.
  assert (G : forall b', data b' = pre ++ rest -> (_ <- set_position (length pre) ;; ret (@None bytes)) b' = (Ok None, mkbuf (pre ++ rest) (length pre))).
  { intros b' D. unfold bind, set_position. rewrite D, app_length. destruct (Nat.ltb_spec (length pre + length rest) (length pre)); [lia|reflexivity]. }
  cbn [pos]. destruct (Nat.ltb_spec (length rest) 2) as [S|S].
  - unfold bind, extract_u16, extract_bytes. unfold bind at 1. cbn [data pos]. rewrite app_length. destruct (Nat.ltb_spec (length pre + length rest) (length pre + 2)); [|lia]. apply G. reflexivity.
  - assert (X : exists r, rest = be 2 (N.of_nat (length m)) ++ r /\ m = r ++ more).
    { exists (skipn 2 rest). assert (E2 : be 2 (N.of_nat (length m)) = firstn 2 rest).
      { apply (f_equal (firstn 2)) in E. unfold with_length in E. rewrite firstn_app, be_length, Nat.sub_diag in E. rewrite firstn_all2 in E by (rewrite be_length; lia).
        rewrite firstn_app in E. replace (2 - length rest)%nat with 0%nat in E by lia. cbn [firstn] in E. rewrite !app_nil_r in E. exact E. }
      split; [rewrite E2; symmetry; apply firstn_skipn|].
      apply (f_equal (skipn 2)) in E. unfold with_length in E. rewrite skipn_app, be_length, Nat.sub_diag in E. rewrite skipn_all2 in E by (rewrite be_length; lia).
      rewrite skipn_app in E. replace (2 - length rest)%nat with 0%nat in E by lia. exact E. }
    destruct X as (r & -> & Em). pose proof (reads_u16 pre r (N.of_nat (length m)) ltac:(lia)) as R. unfold reads in R. unfold bind at 1. rewrite R.
    unfold extract_bytes. cbn [data pos]. rewrite !app_length, !be_length.
    assert (length more <> 0)%nat by (destruct more; [congruence|discriminate]). pose proof (f_equal (@length _) Em) as Lm. rewrite app_length in Lm.
    destruct (Nat.ltb_spec (length pre + (2 + length r)) (length pre + 2 + N.to_nat (N.of_nat (length m)))); [|lia]. apply G. reflexivity.
Qed.
Lemma all_taken ms : forall fuel pre rest, Forall sendable ms -> unfinished rest -> (length ms < fuel)%nat ->
  all_messages fuel (mkbuf (pre ++ flat_map with_length ms ++ rest) (length pre)) =
  (Ok ms, mkbuf (pre ++ flat_map with_length ms ++ rest) (length pre + length (flat_map with_length ms))).
Proof.
  induction ms as [|m ms IH]; intros [|fuel] pre rest S U L; cbn [length] in L; try lia; cbn [all_messages flat_map].
  - cbn [app length]. unfold bind. rewrite next_part by exact U. rewrite Nat.add_0_r. reflexivity.
  - inversion S; subst. unfold bind at 1. rewrite <- app_assoc. rewrite next_whole by assumption. unfold bind.
    specialize (IH fuel (pre ++ with_length m) rest ltac:(assumption) U ltac:(lia)). rewrite <- !app_assoc, app_length in IH. rewrite IH. cbn [ret]. rewrite app_length, Nat.add_assoc. reflexivity.
Qed.
Lemma frames_long ms : (length ms <= length (flat_map with_length ms))%nat.
Proof. induction ms as [|m ms IH]; [cbn; lia|]. cbn [flat_map length]. rewrite app_length. unfold with_length at 1. rewrite app_length, be_length. lia. Qed.
Lemma all_arrive left piece ms rest : Forall sendable ms -> unfinished rest -> left ++ piece = flat_map with_length ms ++ rest -> arrives left piece = Ok (ms, rest).
Proof.
  intros S U E. unfold arrives. rewrite E. pose proof (frames_long ms) as L. pose proof (all_taken ms (Datatypes.S (length (flat_map with_length ms ++ rest))) [] rest S U) as A.
  cbn [app length] in A. unfold buf_from. rewrite A by (rewrite app_length; lia). cbn [data pos Nat.add].
  rewrite skipn_app, skipn_all2, Nat.sub_diag by lia. reflexivity.
Qed.

(** ** The property *)
(** Every stream of octets is a number of whole messages and an unfinished one. *)
Theorem C116_stream : forall s : bytes, byte_list s -> exists ms rest, s = flat_map with_length ms ++ rest /\ Forall sendable ms /\ unfinished rest.
Proof.
  assert (X : forall n s, (length s <= n)%nat -> byte_list s -> exists ms rest, s = flat_map with_length ms ++ rest /\ Forall sendable ms /\ unfinished rest).
  2: { intros s B. exact (X (length s) s (Nat.le_refl _) B). }
  assert (Z : forall k, byte_list (repeat 0 k)). { intros k. apply Forall_forall. intros x H. apply repeat_spec in H. subst. reflexivity. }
  induction n as [|n IH]; intros s L B.
  - destruct s; [|cbn in L; lia]. exists [], []. split; [reflexivity|]. split; [constructor|]. exists [], [0; 0]. split; [split; [cbn; lia|constructor]|]. split; [reflexivity|discriminate].
  - destruct s as [|a [|b t]].
    + apply (IH []); [cbn; lia|exact B].
    + exists [], [a]. split; [reflexivity|]. split; [constructor|]. inversion B; subst. exists (repeat 0 (N.to_nat (a * 256))).
      exists (0 :: repeat 0 (N.to_nat (a * 256))). unfold sendable, with_length. rewrite repeat_length, N2Nat.id. split; [split; [lia|apply Z]|]. split; [|discriminate].
      assert (U : unbe [a; 0] = a * 256) by (unfold unbe; cbn [fold_left]; lia). pose proof (be_unbe [a; 0] ltac:(repeat constructor; assumption || lia)) as W.
      rewrite U in W. cbn [length] in W. rewrite W. reflexivity.
    + inversion B as [|? ? Ba B1]; subst. inversion B1 as [|? ? Bb Bt]; subst. cbn [length] in L.
      assert (U : unbe [a; b] = a * 256 + b) by (unfold unbe; cbn [fold_left]; lia).
      pose proof (be_unbe [a; b] ltac:(repeat constructor; assumption)) as W. rewrite U in W. cbn [length] in W.
      destruct (N.leb_spec (a * 256 + b) (N.of_nat (length t))) as [H|H].
      * set (k := N.to_nat (a * 256 + b)). destruct (IH (skipn k t)) as (ms & rest & E & S & R).
        { rewrite skipn_length. lia. } { apply (Forall_app (fun x => x < 256) (firstn k t) (skipn k t)). rewrite firstn_skipn. exact Bt. }
        exists (firstn k t :: ms), rest. assert (Lk : N.of_nat (length (firstn k t)) = a * 256 + b) by (rewrite firstn_length; lia).
        split; [|split; [constructor; [split; [lia|apply (Forall_app (fun x => x < 256) (firstn k t) (skipn k t)); rewrite firstn_skipn; exact Bt]|exact S]|exact R]].
        cbn [flat_map]. unfold with_length at 1. rewrite Lk, W. rewrite <- !app_assoc, <- E, firstn_skipn. reflexivity.
      * exists [], (a :: b :: t). split; [reflexivity|]. split; [constructor|]. set (k := (N.to_nat (a * 256 + b) - length t)%nat).
        assert (Lk : N.of_nat (length (t ++ repeat 0 k)) = a * 256 + b) by (rewrite app_length, repeat_length; lia).
        exists (t ++ repeat 0 k), (repeat 0 k). split; [split; [lia|apply Forall_app; split; [exact Bt|apply Z]]|].
        split; [unfold with_length; rewrite Lk, W; reflexivity|]. assert (K : (k <> 0)%nat) by lia. destruct k; [lia|discriminate].
Qed.
Print Assumptions C116_stream.

(** However it is cut into pieces, the messages that are taken out are these, in order; what is left is the unfinished one. *)
Theorem C116_pieces : forall (pieces ms : list bytes) (rest : bytes), byte_list (concat pieces) -> Forall sendable ms -> unfinished rest ->
  concat pieces = flat_map with_length ms ++ rest -> receive [] pieces = Ok (ms, rest).
Proof.
  intros pieces ms rest B S U E.
  assert (X : forall pieces left, byte_list (left ++ concat pieces) -> unfinished left -> exists ms rest, receive left pieces = Ok (ms, rest) /\ Forall sendable ms /\ unfinished rest /\
    left ++ concat pieces = flat_map with_length ms ++ rest).
  { clear. induction pieces as [|x pieces IH]; intros left B U; cbn [receive concat].
    - exists [], left. cbn. rewrite app_nil_r. repeat split; auto.
    - cbn [concat] in B. rewrite app_assoc in B. destruct (C116_stream (left ++ x)) as (ms1 & r1 & E1 & S1 & U1). { apply Forall_app in B. apply B. }
      rewrite (all_arrive left x ms1 r1 S1 U1 E1). cbn [rbind fst snd]. destruct (IH r1) as (ms2 & r2 & E2 & S2 & U2 & C).
      { rewrite E1 in B. rewrite <- app_assoc in B. apply Forall_app in B. apply B. } { exact U1. }
      rewrite E2. cbn [rbind fst snd]. exists (ms1 ++ ms2), r2. split; [reflexivity|]. split; [apply Forall_app; auto|]. split; [exact U2|].
      rewrite app_assoc, E1, <- app_assoc, C, app_assoc, <- flat_map_app. reflexivity. }
  destruct (X pieces []) as (ms' & rest' & R & S' & U' & C).
  { exact B. } { exists [], [0; 0]. split; [split; [cbn; lia|constructor]|]. split; [reflexivity|discriminate]. }
  cbn [app] in C. rewrite R. pose proof (all_arrive [] (concat pieces) ms rest S U E) as A. pose proof (all_arrive [] (concat pieces) ms' rest' S' U' C) as A'.
  rewrite A in A'. symmetry. exact A'.
Qed.
Print Assumptions C116_pieces.

(** So the packets a sender writes in compressed form arrive, at the same time or one by one, whatever the pieces. *)
Theorem C116_packets_partial : forall (c : cfg) (h : hasher) (ps : list packet) (ds pieces : list bytes),
  Forall2 (fun p d => packet_ok c p /\ counts_of p = true_counts p /\ hash_separates h (packet_names p) /\ packet_to_bytes_compressed c h p = Ok d /\ N.of_nat (length d) <= 16384 /\ byte_list d) ps ds ->
  concat pieces = flat_map with_length ds -> exists ms, receive [] pieces = Ok (ms, []) /\ map (packet_try_from c) ms = map Ok ps.
Proof.
  intros c h ps ds pieces F E. exists ds.
  assert (S : Forall sendable ds). { clear E. induction F as [|p d ps ds (_ & _ & _ & _ & L & B) F IH]; constructor; [split; [lia|exact B]|exact IH]. }
  split.
  - apply C116_pieces; [|exact S| |rewrite app_nil_r; exact E].
    + rewrite E. clear E F. induction S as [|m ms (L & B) S IH]; [constructor|]. cbn [flat_map]. apply Forall_app. split; [|exact IH]. apply Forall_app. split; [|exact B]. apply be_bytes.
    + exists [], [0; 0]. split; [split; [cbn; lia|constructor]|]. split; [reflexivity|discriminate].
  - clear E S. induction F as [|p d ps ds (O & C & H & W & L & _) F IH]; [reflexivity|]. cbn [map]. rewrite IH.
    pose proof (C29_compressed_roundtrip_partial c h p d O C H W L []) as R. rewrite app_nil_r in R. rewrite R. reflexivity.
Qed.
Print Assumptions C116_packets_partial.

(** The two octets cannot announce more than 65535: a longer message (which [to_bytes] writes without complaint, C33) would be cut by the receiver.  [as u16] is what
    a sender would write for the length. *)
Theorem C116_long_refuted : forall m : bytes, byte_list m -> 65535 < N.of_nat (length m) ->
  exists ms rest, receive [] [be 2 (len16 (length m)) ++ m] = Ok (ms, rest) /\ ~ In m ms.
Proof.
  intros m B L. assert (B' : byte_list (be 2 (len16 (length m)) ++ m)) by (apply Forall_app; split; [apply be_bytes|exact B]).
  destruct (C116_stream _ B') as (ms & rest & E & S & U). exists ms, rest. split.
  - apply C116_pieces; try assumption; cbn [concat]; rewrite app_nil_r; assumption.
  - intros I. rewrite Forall_forall in S. destruct (S m I) as (H & _). lia.
Qed.
Print Assumptions C116_long_refuted.

(** Two copies of a compressed message, in three pieces of which one ends inside the length of the second and one inside its data; and two replies that share names,
    in pieces of one octet: both arrive (compare C80_two_refuted, where they are parsed where they stand). *)
Definition ex_sent : bytes := ex_bytes (packet_to_bytes_compressed ex_cfg ex_hash ex_packet).
Definition ex_pieces : list bytes := let s := flat_map with_length [ex_sent; ex_sent] in [firstn 108 s; firstn 30 (skipn 108 s); skipn 138 s].
Example C116_ex : Forall2 (fun p d => packet_ok ex_cfg p /\ counts_of p = true_counts p /\ hash_separates ex_hash (packet_names p) /\ packet_to_bytes_compressed ex_cfg ex_hash p = Ok d /\
    N.of_nat (length d) <= 16384 /\ byte_list d) [ex_packet; ex_packet] [ex_sent; ex_sent] /\
  concat ex_pieces = flat_map with_length [ex_sent; ex_sent] /\ map (@length N) ex_pieces = [108; 30; 76]%nat.
Proof.
  assert (E : packet_to_bytes_compressed ex_cfg ex_hash ex_packet = Ok ex_sent) by (vm_compute; reflexivity).
  assert (X : packet_ok ex_cfg ex_packet /\ counts_of ex_packet = true_counts ex_packet /\ hash_separates ex_hash (packet_names ex_packet) /\ packet_to_bytes_compressed ex_cfg ex_hash ex_packet = Ok ex_sent /\
    N.of_nat (length ex_sent) <= 16384 /\ byte_list ex_sent).
  { split; [apply plain_is_ok, ex_packet_plain|]. split; [reflexivity|]. split; [exact ex_packet_separates|]. split; [exact E|]. split; [vm_compute; discriminate|].
    apply Forall_forall. intros x I. assert (F : forallb (fun y => y <? 256) ex_sent = true) by (vm_compute; reflexivity). rewrite forallb_forall in F. apply N.ltb_lt, F, I. }
  split; [constructor; [exact X|constructor; [exact X|constructor]]|]. split; vm_compute; reflexivity.
Qed.
Example C116_ex_octets : forall c, exists d1 d2, packet_to_bytes_compressed c ex_hash (reply [97] 16909060) = Ok d1 /\ packet_to_bytes_compressed c ex_hash (reply [98] 84281096) = Ok d2 /\
  receive [] (map (fun x => [x]) (flat_map with_length [d1; d2])) = Ok ([d1; d2], []) /\ map (packet_try_from c) [d1; d2] = [Ok (reply [97] 16909060); Ok (reply [98] 84281096)].
Proof.
  intros c. destruct c as [[|] [|] [|]]; do 2 eexists; (split; [vm_compute; reflexivity|]); (split; [vm_compute; reflexivity|]); split; vm_compute; reflexivity.
Qed.
Example C116_ex_long : exists m : bytes, byte_list m /\ 65535 < N.of_nat (length m).
Proof.
  exists (repeat 0 (N.to_nat 65536)). split.
  - apply Forall_forall. intros x H. apply repeat_spec in H. subst. reflexivity.
  - rewrite repeat_length, N2Nat.id. reflexivity.
Qed.
