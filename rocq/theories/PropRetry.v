(** * C131: who asks again after a truncated reply has all answers *)
From Coq Require Import Lia ZifyBool ZifyNat ZifyN.
From Verif Require Import Base Buffer Fqdn Header Types RDataBasic Svcb RDataSec RData Packet BaseFacts FqdnFacts CodeSpec CodeFacts HeaderSpec HeaderFacts CompressSpec RDataSpec RDataFacts RDataReads RecordSpec RecordFacts
  PacketFacts PacketProps ApiSpec PropName PropRecord PropPacket PropLimit PropStream.

(** ** What users write (RFC 1035, 4.2; RFC 7766, 5)

    The server fills the reply up to what a datagram can take; over TCP, where each message has its length before it, up to 65535 octets. *)
Definition serve (c : cfg) (limit : nat) (p : packet) (rs : list rr) : res bytes := let! q := filled c limit p rs in packet_to_bytes c q.
Definition tcp_limit : nat := N.to_nat 65535.
(** The client reads the datagram; if it is marked as truncated it asks again over TCP and takes what arrives there, in whatever pieces. *)
Definition ask (c : cfg) (datagram : bytes) (pieces : list bytes) : res packet :=
  let! u := packet_try_from c datagram in
  if truncation (p_header u) then let! z := receive [] pieces in match fst z with m :: _ => packet_try_from c m | [] => Ok u end else Ok u.

Lemma truncation_same p q : hflags (p_header p) = hflags (p_header q) -> truncation (p_header p) = truncation (p_header q).
Proof. unfold truncation. intros E. rewrite E. reflexivity. Qed.
Lemma served c limit p rs n : packet_plain_ok c p -> counts_of p = true_counts p -> Forall (rr_plain_ok c) rs -> truncation (p_header p) = false ->
  packet_byte_size c p = Ok n -> (n <= limit)%nat -> N.of_nat limit <= 65535 ->
  exists bs q, serve c limit p rs = Ok bs /\ packet_try_from c bs = Ok q /\ (length bs <= limit)%nat /\ p_questions q = p_questions p /\ id (p_header q) = id (p_header p) /\
  exists given left, rs = given ++ left /\ p_answers q = p_answers p ++ given /\ (truncation (p_header q) = true <-> left <> []) /\
    (forall r left', left = r :: left' -> exists b, rr_to_bytes c r = Ok b /\ (limit < length bs + length b)%nat).
Proof.
  intros P K F T E Le L. destruct (C118_fits_partial c limit p rs n P K F E Le L) as (given & left & q & p' & bs & Ers & _ & Fi & _ & An & Qu & _ & _ & Id & Fl & Tr & W & Lb & R & Next & _).
  exists bs, p'. split; [unfold serve; rewrite Fi; exact W|]. split; [exact R|]. split; [exact Lb|]. split; [exact Qu|]. split; [exact Id|].
  exists given, left. split; [exact Ers|]. split; [exact An|]. split; [|exact Next]. split; [|exact Tr].
  intros X NL. rewrite (truncation_same p' p (Fl NL)), T in X. discriminate X.
Qed.

(** The client ends with a reply that is complete unless it is marked as truncated; and it is so marked only if the answers do not fit into 65535 octets:
    the message it has has no room for the next one. *)
Theorem C131_all_partial : forall (c : cfg) (limit n : nat) (p : packet) (rs : list rr), packet_plain_ok c p -> counts_of p = true_counts p -> Forall (rr_plain_ok c) rs ->
  truncation (p_header p) = false -> packet_byte_size c p = Ok n -> (n <= limit)%nat -> N.of_nat limit <= 65535 ->
  exists d t, serve c limit p rs = Ok d /\ (length d <= limit)%nat /\ serve c tcp_limit p rs = Ok t /\
  forall pieces, byte_list t -> concat pieces = with_length t ->
  exists q, ask c d pieces = Ok q /\ p_questions q = p_questions p /\ id (p_header q) = id (p_header p) /\
    (truncation (p_header q) = false -> p_answers q = p_answers p ++ rs) /\
    (truncation (p_header q) = true -> exists given r left b, rs = given ++ r :: left /\ p_answers q = p_answers p ++ given /\ rr_to_bytes c r = Ok b /\ 65535 < N.of_nat (length t + length b)).
Proof.
  intros c limit n p rs P K F T E Le L. assert (Z : N.of_nat tcp_limit = 65535) by (unfold tcp_limit; rewrite N2Nat.id; reflexivity).
  destruct (served c limit p rs n P K F T E Le L) as (d & u & Sd & Rd & Ld & Qd & Id & gd & ld & Ed & Ad & Td & _).
  destruct (served c tcp_limit p rs n P K F T E ltac:(lia) ltac:(lia)) as (t & w & St & Rt & Lt & Qt & It & gt & lt & Et & At & Tt & Nt).
  exists d, t. split; [exact Sd|]. split; [exact Ld|]. split; [exact St|]. intros pieces B C. unfold ask. rewrite Rd. cbn [rbind]. destruct (truncation (p_header u)) eqn:Tu.
  - assert (S : sendable t) by (split; [lia|exact B]).
    assert (U : unfinished []) by (exists t, (with_length t); split; [exact S|]; split; [reflexivity|]; unfold with_length; intros X; apply (f_equal (@length N)) in X; rewrite app_length, be_length in X; cbn in X; lia).
    rewrite (C116_pieces pieces [t] []).
    + cbn [rbind fst]. rewrite Rt. exists w. split; [reflexivity|]. split; [exact Qt|]. split; [exact It|]. split.
      * intros X. destruct lt as [|r lt]; [rewrite app_nil_r in Et; subst gt; exact At|]. destruct Tt as (_ & Tt). rewrite Tt in X by discriminate. discriminate X.
      * intros X. apply Tt in X. destruct lt as [|r lt]; [congruence|]. destruct (Nt r lt eq_refl) as (b & Eb & Lb). exists gt, r, lt, b. repeat split; try assumption. lia.
    + rewrite C. unfold with_length. apply Forall_app. split; [apply be_bytes|exact B].
    + constructor; [exact S|constructor].
    + exact U.
    + rewrite C. cbn [flat_map]. rewrite !app_nil_r. reflexivity.
  - exists u. split; [reflexivity|]. split; [exact Qd|]. split; [exact Id|]. split.
    + intros _. destruct ld as [|r ld]; [rewrite app_nil_r in Ed; subst gd; exact Ad|]. destruct Td as (_ & Td). exfalso. assert (X : r :: ld <> []) by discriminate. specialize (Td X). congruence.
    + rewrite Tu. discriminate.
Qed.
(** A datagram of 190 octets has one answer less, the whole message has all. *)
Example C131_ex : packet_plain_ok ex_cfg bare /\ counts_of bare = true_counts bare /\ Forall (rr_plain_ok ex_cfg) (p_answers ex_packet) /\ truncation (p_header bare) = false /\
  (exists n, packet_byte_size ex_cfg bare = Ok n /\ (n <= 190)%nat) /\
  exists d t u, serve ex_cfg 190 bare (p_answers ex_packet) = Ok d /\ packet_to_bytes ex_cfg ex_packet = Ok t /\ packet_try_from ex_cfg d = Ok u /\ truncation (p_header u) = true /\
    ask ex_cfg d [firstn 5 (with_length t); skipn 5 (with_length t)] = Ok ex_packet.
Proof.
  destruct C118_ex as (A & B & C & _). split; [exact A|]. split; [exact B|]. split; [exact C|]. split; [reflexivity|]. split; [eexists; split; [vm_compute; reflexivity|lia]|].
  do 3 eexists. split; [vm_compute; reflexivity|]. split; [vm_compute; reflexivity|]. split; [vm_compute; reflexivity|]. split; vm_compute; reflexivity.
Qed.
Print Assumptions C131_all_partial.
