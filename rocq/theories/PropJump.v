(** * Property C100: how many pointers the names of a compressed message take *)
From Verif Require Import Base Buffer Fqdn Header Types RDataBasic Bitmap Svcb RDataSec RData Packet BaseFacts NameSpec FqdnFacts CompressSpec ChunkFacts
  RecordSpec PropName PropRecord PropPacket JumpSpec JumpFacts.
From Coq Require Import Lia ZifyNat ZifyN.

(** ** C100 *)
(** Every name of a compressed message lies behind the header, in order and without overlap, is read back, by pointers that only go
    backwards, and takes no more pointers than it has labels. *)
Theorem C100_names : forall (c : cfg) (h : hasher) (p : packet) (out : bytes),
  hash_separates h (packet_names p) -> Forall (Forall (fun l : bytes => 1 <= N.of_nat (length l) <= 191)) (packet_names p) ->
  packet_to_bytes_compressed c h p = Ok out -> N.of_nat (length out) <= 16384 ->
  exists t, table_names t = packet_names p /\ in_order 12 t /\
    Forall (fun x => let '(b, f, e) := x in
      extract_fqdn (mkbuf out b) = (Ok f, mkbuf out e) /\ strict_name_at out 191 b f e /\ exists n, (n <= length f)%nat /\ jumps out b f n) t.
Proof. exact message_jumps. Qed.
(** The number of pointers is a matter of the octets alone. *)
Theorem C100_once : forall (d : bytes) (p : nat) (f f' : list bytes) (n n' : nat), jumps d p f n -> jumps d p f' n' -> f' = f /\ n' = n.
Proof. intros d p f f' n n' J. apply (jumps_once d p f n J). Qed.
(** A name that keeps to the 255 octets of RFC 1035 therefore takes at most 127 pointers. *)
Theorem C100_most : forall (c : cfg) (h : hasher) (p : packet) (out : bytes),
  hash_separates h (packet_names p) -> Forall (Forall (fun l : bytes => 1 <= N.of_nat (length l) <= 191)) (packet_names p) -> Forall within_255 (packet_names p) ->
  packet_to_bytes_compressed c h p = Ok out -> N.of_nat (length out) <= 16384 ->
  exists t, table_names t = packet_names p /\ in_order 12 t /\ Forall (fun x => let '(b, f, e) := x in exists n, (n <= 127)%nat /\ jumps out b f n) t.
Proof.
  intros c h p out HS HL HW E HN. destruct (message_jumps c h p out HS HL E HN) as (t & T & O & F). exists t. split; [exact T|]. split; [exact O|].
  rewrite Forall_forall in *. intros [[b f] e] I. specialize (F _ I). destruct F as (_ & _ & n & L & J). exists n. split; [|exact J].
  assert (K : In f (packet_names p)). { rewrite <- T. apply (in_map (fun x => snd (fst x)) t (b, f, e) I). }
  specialize (HW f K). specialize (HL f K). eapply Nat.le_trans; [exact L|]. apply fits_labels; [exact HW|]. eapply Forall_impl; [|exact HL]. intros l X. cbv beta in X. lia.
Qed.
(** It is not bounded by ten, where the resolver of Go stops: eleven names of which each has one label more than the one before, then the
    last of them again. *)
Definition nested (k : nat) : fqdn := rev (map (fun i => [97 + N.of_nat i]) (seq 0 k)).
Definition nested_packet : packet :=
  mkPacket (mkheader 1 (hflags (header_new_reply 0 StandardQuery)) 12 0 0 0) (map (fun k => mkQ (nested k) (QT A) QIN false) (seq 1 11 ++ [11%nat])) [] [] [].
Lemma nested_ok k : fqdn_ok (nested k).
Proof. unfold nested, fqdn_ok. apply Forall_rev, Forall_map, Forall_forall. intros i _. unfold label_ok. cbn. lia. Qed.
Definition nested_bytes : bytes :=
  [0; 1; 128; 0; 0; 12; 0; 0; 0; 0; 0; 0; 1; 97; 0; 0; 1; 0; 1; 1; 98; 192; 12; 0; 1; 0; 1; 1; 99; 192; 19; 0; 1; 0; 1; 1; 100; 192; 27;
   0; 1; 0; 1; 1; 101; 192; 35; 0; 1; 0; 1; 1; 102; 192; 43; 0; 1; 0; 1; 1; 103; 192; 51; 0; 1; 0; 1; 1; 104; 192; 59; 0; 1; 0; 1; 1;
   105; 192; 67; 0; 1; 0; 1; 1; 106; 192; 75; 0; 1; 0; 1; 1; 107; 192; 83; 0; 1; 0; 1; 192; 91; 0; 1; 0; 1].
Theorem C100_ten_refuted : exists (c : cfg) (h : hasher) (p : packet) (out : bytes) (b e : nat) (f : fqdn) (n : nat),
  packet_ok c p /\ counts_of p = true_counts p /\ hash_separates h (packet_names p) /\ packet_to_bytes_compressed c h p = Ok out /\ N.of_nat (length out) <= 512 /\
  extract_fqdn (mkbuf out b) = (Ok f, mkbuf out e) /\ In f (packet_names p) /\ within_255 f /\ jumps out b f n /\ (10 < n)%nat.
Proof.
  exists ex_cfg, ex_hash, nested_packet, nested_bytes, 99%nat, 101%nat, (nested 11), 11%nat.
  split; [|split; [reflexivity|split; [apply separates_b_true; vm_compute; reflexivity|split; [vm_compute; reflexivity|split; [vm_compute; discriminate|split; [vm_compute; reflexivity|split; [|split; [vm_compute; discriminate|split; [|lia]]]]]]]]].
  - split; [repeat split|]. split; [|constructor]. apply Forall_map, Forall_forall. intros k _. split; [apply nested_ok|]. split; [split; [reflexivity|split; discriminate]|reflexivity].
  - cbn [packet_names nested_packet p_questions records_of p_answers p_authorities p_additionals map app seq q_name]. repeat (first [left; reflexivity|right]).
  - change (nested 11) with [[107]; [106]; [105]; [104]; [103]; [102]; [101]; [100]; [99]; [98]; [97 : N]].
    repeat (first [apply no_jump; reflexivity
      |eapply past_label; [eexists; split; [reflexivity|split; [split; discriminate|split; [apply Nat.leb_le; reflexivity|reflexivity]]]|]
      |eapply one_jump; [do 2 eexists; split; [reflexivity|split; [split; [discriminate|reflexivity]|split; [reflexivity|split; [reflexivity|vm_compute; reflexivity]]]]|]]).
Qed.
Example C100_ex : hash_separates ex_hash (packet_names ex_packet) /\ Forall (fun f : fqdn => Forall (fun l : bytes => 1 <= N.of_nat (length l) <= 191) f) (packet_names ex_packet) /\
  Forall within_255 (packet_names ex_packet) /\ length (packet_names ex_packet) = 7%nat /\
  exists out, packet_to_bytes_compressed ex_cfg ex_hash ex_packet = Ok out /\ length out = 105%nat.
Proof.
  split; [exact ex_packet_separates|]. split; [repeat constructor; discriminate|]. split; [repeat constructor; discriminate|]. split; [reflexivity|].
  eexists. split; vm_compute; reflexivity.
Qed.
Print Assumptions C100_names.
Print Assumptions C100_once.
Print Assumptions C100_most.
Print Assumptions C100_ten_refuted.
