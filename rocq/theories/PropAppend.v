(** * Records appended to a finished message, and taken off it (C99). *)
From Coq Require Import Lia ZifyBool ZifyNat ZifyN.
From Verif Require Import Base Buffer Fqdn Header Types RDataBasic RDataSec RData Packet BaseFacts RDataSpec RecordSpec BufferFacts RecordFacts PatchSpec PatchFacts AppendSpec AppendFacts PropName PropRecord PropPacket PropPatch.

(** The octets of a record behind a message, the counter of the last section one up, and no name read through
    the counter: the message parses to what the call that adds the record makes of the packet.  The record
    may be compressed against the message. *)
Theorem C99_appended_partial : forall (c : cfg) (d rb : bytes) (p : packet) (s : section) (r : rr) (e : buf), byte_list (d ++ rb) ->
  packet_try_from_buf c (buf_from d) = (Ok p, mkbuf d (length d)) -> is_last s p -> N.of_nat (length (records s p)) + 1 < 65536 ->
  rr_try_from c (mkbuf (d ++ rb) (length d)) = (Ok r, e) ->
  (forall q, (count_at s <= q < count_at s + 2)%nat -> ~ pointed_at (d ++ rb) q) ->
  exists p', add_to c s p r = Ok p' /\ packet_try_from c (patch (d ++ rb) (count_at s) (be 2 (N.of_nat (length (records s p)) + 1))) = Ok p'.
Proof.
  intros c d rb p s r e B E LA O R NP. assert (Bd : byte_list d) by (apply Forall_app in B; apply B).
  pose proof (C35_cursor c d rb p _ Bd E) as E2. destruct (append_read c (d ++ rb) p s r _ e B E2 LA O R NP) as (p' & A & X).
  exists p'. split; [exact A|]. unfold packet_try_from. rewrite X. reflexivity.
Qed.
(** The octets the library itself writes for the record will do. *)
Theorem C99_plain_partial : forall (c : cfg) (d rb : bytes) (p : packet) (s : section) (r : rr), byte_list (d ++ rb) ->
  packet_try_from_buf c (buf_from d) = (Ok p, mkbuf d (length d)) -> is_last s p -> N.of_nat (length (records s p)) + 1 < 65536 ->
  rr_plain_ok c r -> rr_to_bytes c r = Ok rb ->
  (forall q, (count_at s <= q < count_at s + 2)%nat -> ~ pointed_at (d ++ rb) q) ->
  exists p', add_to c s p r = Ok p' /\ packet_try_from c (patch (d ++ rb) (count_at s) (be 2 (N.of_nat (length (records s p)) + 1))) = Ok p'.
Proof.
  intros c d rb p s r B E LA O K R NP. destruct (reads_rr c r K) as (bs & X & Y). rewrite R in X. apply ok_eq in X. subst bs.
  specialize (Y d []). unfold reads in Y. rewrite app_nil_r in Y. apply (C99_appended_partial c d rb p s r _ B E LA O Y NP).
Qed.
(** The last record of a message begins at some octet; the message cut off there, with the counter one down,
    parses to the packet without that record, if no name is read through the counter or the record. *)
Theorem C99_removed_partial : forall (c : cfg) (d : bytes) (p : packet) (s : section) (rs : list rr) (r : rr) (b : buf), byte_list d ->
  packet_try_from_buf c (buf_from d) = (Ok p, b) -> is_last s p -> records s p = rs ++ [r] ->
  exists k, (k < length d)%nat /\ rr_try_from c (mkbuf d k) = (Ok r, b) /\
    ((forall q, (count_at s <= q < count_at s + 2)%nat \/ (k <= q < length d)%nat -> ~ pointed_at d q) ->
     packet_try_from_buf c (buf_from (patch (firstn k d) (count_at s) (be 2 (N.of_nat (length rs))))) =
     (Ok (set_to s p rs), mkbuf (patch (firstn k d) (count_at s) (be 2 (N.of_nat (length rs)))) k)).
Proof. exact remove_read. Qed.
(** Written messages: the one with a record more is the one without, the octets of the record, and the
    counter.  [h]: the hash function of the dictionary of names. *)
Theorem C99_written : forall (c : cfg) (p : packet) (s : section) (r : rr) (out rb : bytes) (p' : packet),
  packet_to_bytes c p = Ok out -> rr_to_bytes c r = Ok rb -> is_last s p -> N.of_nat (length (records s p)) + 1 < 65536 -> add_to c s p r = Ok p' ->
  packet_to_bytes c p' = Ok (patch (out ++ rb) (count_at s) (be 2 (N.of_nat (length (records s p)) + 1))).
Proof.
  intros c p s r out rb p' E R LA O A. assert (Z := R). unfold rr_to_bytes in Z. apply rbind_ok in Z. destruct Z as (n & Z & _).
  rewrite (append_written c p s r out rb n E Z R LA p' A). rewrite len16_id by lia. repeat f_equal. lia.
Qed.
Theorem C99_compressed : forall (c : cfg) (h : hasher) (p : packet) (s : section) (r : rr) (out : bytes) (p' : packet) (out' : bytes),
  packet_to_bytes_compressed c h p = Ok out -> is_last s p -> add_to c s p r = Ok p' -> packet_to_bytes_compressed c h p' = Ok out' ->
  exists rb m m', rr_to_bytes_compressed c h r m (length out) = Ok (rb, m') /\ out' = patch (out ++ rb) (count_at s) (be 2 (counter s p')).
Proof. exact append_compressed. Qed.

(** A name can be read through the counter, and through octets of a later record. *)
Theorem C99_appended_refuted : exists (c : cfg) (d rb : bytes) (p p' : packet) (r : rr), byte_list (d ++ rb) /\
  packet_try_from_buf c (buf_from d) = (Ok p, mkbuf d (length d)) /\ p_additionals p = [] /\ rr_plain_ok c r /\ rr_to_bytes c r = Ok rb /\ add_to c Additionals p r = Ok p' /\
  packet_try_from c (patch (d ++ rb) 10 (be 2 1)) <> Ok p'.
Proof.
  exists ex_cfg, [0; 1; 0; 0; 0; 1; 0; 0; 0; 0; 0; 0; 192; 11; 0; 1; 0; 1], [0; 0; 1; 0; 1; 0; 0; 0; 60; 0; 4; 0; 0; 0; 1].
  do 2 eexists. exists (mkRR [] A false CIN 60 (DA 1)). split; [repeat constructor|]. split; [vm_compute; reflexivity|]. split; [reflexivity|]. split.
  { split; [|split; [exact I|intros bs E; injection E as <-; cbn; lia]]. repeat split; try discriminate; try (apply basic_exists; reflexivity); try reflexivity; constructor. }
  split; [vm_compute; reflexivity|]. split; [vm_compute; reflexivity|]. vm_compute. discriminate.
Qed.
Theorem C99_removed_refuted : exists (c : cfg) (d : bytes) (k : nat) (p : packet) (r : rr), byte_list d /\
  packet_try_from_buf c (buf_from d) = (Ok p, mkbuf d (length d)) /\ p_additionals p = [r] /\ rr_try_from c (mkbuf d k) = (Ok r, mkbuf d (length d)) /\
  packet_try_from c (patch (firstn k d) 10 (be 2 0)) <> Ok (set_additionals p []).
Proof.
  exists ex_cfg, ([18; 1; 0; 0; 0; 1; 0; 0; 0; 0; 0; 1] ++ [192; 0; 0; 1; 0; 1] ++ [0; 0; 1; 0; 1; 0; 0; 0; 60; 0; 4; 0; 0; 0; 1]), 18%nat.
  do 2 eexists. split; [repeat constructor|]. split; [vm_compute; reflexivity|]. split; [reflexivity|]. split; [vm_compute; reflexivity|]. vm_compute. discriminate.
Qed.

(** The response of C95 gets an OPT record, and loses it again. *)
Definition ex_opt : bytes := [0; 0; 41; 4; 208; 0; 0; 0; 0; 0; 0].
Definition ex_signed : bytes := patch (ex_response ++ ex_opt) 10 (be 2 1).
Lemma opt_looks d p q : d = ex_response ++ ex_opt \/ d = ex_signed -> looks d p q -> p = 12%nat \/ p = 16%nat -> (12 <= q < 17)%nat.
Proof.
  intros D. induction 1 as [p|p n i E L I|p n q E L NZ _ IH|p n E L|p n m q E L M _ IH]; intros [-> | ->]; try lia; destruct D as [-> | ->]; injection E as <-; try lia.
Qed.
Lemma opt_far d p q : d = ex_response ++ ex_opt \/ d = ex_signed -> looks d p q -> (100 <= p)%nat -> q = p.
Proof. intros D K P. assert (G : nth_error d p = None) by (apply nth_error_None; destruct D as [-> | ->]; vm_compute length; lia). destruct K; congruence. Qed.
Lemma opt_clear d q : d = ex_response ++ ex_opt \/ d = ex_signed -> (q < 12 \/ 37 <= q < 100)%nat -> ~ pointed_at d q.
Proof.
  intros D Q (i & n & m & E & L & M & K). assert (T : target n m = 12%nat \/ (100 <= target n m)%nat).
  { destruct D as [-> | ->]; do 48 (destruct i as [|i]; [vm_compute in E, M; first [discriminate M | injection E as <-; injection M as <-; first [exfalso; lia | left; reflexivity | right; vm_compute; lia]]|]); vm_compute in E; destruct i; discriminate E. }
  destruct T as [T|T]; [apply (opt_looks d) in K; [lia|exact D|left; exact T]|apply (opt_far d) in K; [|exact D|exact T]]. lia.
Qed.
Example C99_ex : exists p p' r e, packet_try_from_buf ex_cfg (buf_from ex_response) = (Ok p, mkbuf ex_response (length ex_response)) /\
  rr_try_from ex_cfg (mkbuf (ex_response ++ ex_opt) (length ex_response)) = (Ok r, e) /\ add_to ex_cfg Additionals p r = Ok p' /\
  packet_try_from ex_cfg ex_signed = Ok p' /\ records Additionals p' = [] ++ [r] /\
  (forall q, (10 <= q < 12)%nat -> ~ pointed_at (ex_response ++ ex_opt) q) /\ (forall q, (10 <= q < 12)%nat \/ (37 <= q < length ex_signed)%nat -> ~ pointed_at ex_signed q) /\
  packet_try_from ex_cfg (patch (firstn 37 ex_signed) 10 (be 2 0)) = Ok p.
Proof.
  do 4 eexists. split; [vm_compute; reflexivity|]. split; [vm_compute; reflexivity|]. split; [vm_compute; reflexivity|]. split; [vm_compute; reflexivity|]. split; [reflexivity|].
  split; [intros q Q; apply opt_clear; [left; reflexivity|lia]|]. split; [intros q Q; apply opt_clear; [right; reflexivity|change (length ex_signed) with 48%nat in Q; lia]|]. vm_compute. reflexivity.
Qed.
Print Assumptions C99_appended_partial.
Print Assumptions C99_plain_partial.
Print Assumptions C99_removed_partial.
Print Assumptions C99_written.
Print Assumptions C99_compressed.
Print Assumptions C99_appended_refuted.
Print Assumptions C99_removed_refuted.
