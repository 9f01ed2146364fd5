(** * C80: messages that stand behind other octets in a buffer.

    [mkbuf (pre ++ d) (length pre)] is the [DnsBuffer] over [pre] and [d] after the octets of [pre] have been extracted. *)
From Coq Require Import Lia ZifyNat ZifyN.
From Verif Require Import Base Buffer Fqdn Header Types RDataBasic Bitmap Svcb RDataSec RData Packet BaseFacts BufferFacts NameSpec RecordSpec PacketFacts ShiftFacts PropName PropRecord PropPacket.

(** A question for an address and the answer. *)
Definition reply (label : bytes) (ip : N) : packet :=
  mkPacket (mkheader 1 (hflags (header_new_reply 0 StandardQuery)) 1 1 0 0) [question_new [label] (QT A) QIN] [mkRR [label] A false CIN 60 (DA ip)] [] [].
(** Behind the two octets that announce its length on TCP (RFC 1035 4.2.2), a compressed message is read as another one:
    its pointers count from the start of the buffer.  The answer is about the root instead of "a". *)
Theorem C80_tcp_refuted : forall c : cfg, exists (d : bytes) (b : buf),
  packet_to_bytes_compressed c ex_hash (reply [97] 16909060) = Ok d /\ packet_try_from c d = Ok (reply [97] 16909060) /\
  packet_try_from_buf c (mkbuf (be 2 (N.of_nat (length d)) ++ d) 2) =
    (Ok (mkPacket (p_header (reply [97] 16909060)) (p_questions (reply [97] 16909060)) [mkRR [] A false CIN 60 (DA 16909060)] [] []), b).
Proof. intros [[] [] []]; do 2 eexists; (split; [vm_compute; reflexivity|]); split; vm_compute; reflexivity. Qed.
(** Of two messages read one after the other from a buffer the second gets its names from the first: what is said about
    "b" is now said about "a". *)
Theorem C80_two_refuted : forall c : cfg, exists (d1 d2 : bytes) (b : buf),
  packet_to_bytes_compressed c ex_hash (reply [97] 16909060) = Ok d1 /\ packet_to_bytes_compressed c ex_hash (reply [98] 84281096) = Ok d2 /\
  packet_try_from c d1 = Ok (reply [97] 16909060) /\ packet_try_from c d2 = Ok (reply [98] 84281096) /\
  repeatP 2 (packet_try_from_buf c) (buf_from (d1 ++ d2)) =
    (Ok [reply [97] 16909060; mkPacket (p_header (reply [98] 84281096)) (p_questions (reply [98] 84281096)) [mkRR [[97]] A false CIN 60 (DA 84281096)] [] []], b).
Proof. intros [[] [] []]; do 3 eexists; (split; [vm_compute; reflexivity|]); (split; [vm_compute; reflexivity|]); (split; [vm_compute; reflexivity|]); split; vm_compute; reflexivity. Qed.
(** Messages in the plain form can be read one after the other, with anything before and behind them. *)
Theorem C80_plain_partial : forall (c : cfg) (ps : list packet),
  Forall (fun p => packet_plain_ok c p /\ counts_of p = true_counts p) ps ->
  exists ds, Forall2 (fun p d => packet_to_bytes c p = Ok d) ps ds /\
    forall pre suf, repeatP (length ps) (packet_try_from_buf c) (mkbuf (pre ++ concat ds ++ suf) (length pre)) =
      (Ok ps, mkbuf (pre ++ concat ds ++ suf) (length pre + length (concat ds))).
Proof.
  intros c ps F.
  assert (exists ds, Forall2 (fun p d => packet_to_bytes c p = Ok d) ps ds /\ Forall2 (fun d p => forall pre suf, reads pre suf (packet_try_from_buf c) d p) ds ps) as (ds & F1 & F2).
  { induction F as [|p ps (H & K) F (ds & F1 & F2)]; [exists []; split; constructor|].
    destruct (reads_packet c p H) as (d & E & R); [apply counts_small; [apply H|exact K]|]. rewrite recount_same in R by exact K.
    exists (d :: ds). split; constructor; assumption. }
  exists ds. split; [exact F1|]. intros pre suf. apply reads_repeat, F2.
Qed.
(** A message in which no octet is 192 or more ends as it would alone, whether it is accepted, rejected or stops the parser,
    and as many octets are taken. *)
Theorem C80_no_pointer_partial : forall (c : cfg) (pre d : bytes), Forall (fun x => x < 192) d ->
  fst (packet_try_from_buf c (mkbuf (pre ++ d) (length pre))) = packet_try_from c d /\
  pos (snd (packet_try_from_buf c (mkbuf (pre ++ d) (length pre)))) = (length pre + pos (snd (packet_try_from_buf c (buf_from d))))%nat.
Proof.
  intros c pre d F. destruct (sh_packet c pre (buf_from d)) as [E _]; [split; [exact F|apply Nat.le_0_l]|]. unfold behind, buf_from in E. cbn [data pos] in E.
  rewrite Nat.add_0_r in E. rewrite E. split; reflexivity.
Qed.
Example C80_ex : Forall (fun p => packet_plain_ok ex_cfg p /\ counts_of p = true_counts p) [ex_packet; ex_packet] /\
  Forall (fun x => x < 192) (one_question ++ fqdn_to_bytes ex_www ++ [0; 1; 0; 1]) /\
  exists p, packet_try_from ex_cfg (one_question ++ fqdn_to_bytes ex_www ++ [0; 1; 0; 1]) = Ok p.
Proof.
  split; [do 2 (constructor; [split; [apply ex_packet_plain|reflexivity]|]); constructor|]. split; [repeat constructor|]. eexists. vm_compute. reflexivity. Qed.
Print Assumptions C80_tcp_refuted.
Print Assumptions C80_two_refuted.
Print Assumptions C80_plain_partial.
Print Assumptions C80_no_pointer_partial.
