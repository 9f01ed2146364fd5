(** * Property C84: the hash that the compressor really uses *)
From Coq Require Import Lia ZifyNat ZifyN String Ascii.
From Verif Require Import Base Utf8 Buffer Fqdn Header Types RDataBasic Bitmap Svcb RDataSec RData Packet BaseFacts NameSpec FqdnFacts CompressSpec ChunkFacts CodeSpec HeaderSpec RDataSpec RDataFacts
  RecordSpec PacketFacts PacketProps LayoutSpec SipHash PropName PropRecord PropPacket.
Open Scope list_scope.

Lemma le_length w n : length (le w n) = w.
Proof. revert n. induction w as [|w IH]; intros n; cbn; [reflexivity|]. rewrite IH. reflexivity. Qed.
Lemma unle_le w : forall n, n < 256 ^ N.of_nat w -> unle (le w n) = n.
Proof.
  induction w as [|w IH]; intros n L; cbn [le unle]; [cbn in L; lia|]. rewrite IH.
  - pose proof (N.div_mod n 256 ltac:(lia)). lia.
  - apply N.div_lt_upper_bound; [lia|]. replace (N.of_nat (S w)) with (N.succ (N.of_nat w)) in L by lia. rewrite N.pow_succ_r' in L. exact L.
Qed.
Lemma app_same {A} (a b x y : list A) : length a = length b -> a ++ x = b ++ y -> a = b /\ x = y.
Proof. revert b. induction a as [|u a IH]; intros [|v b] L E; try discriminate L; [auto|]. injection L as L. injection E as -> E. destruct (IH b L E) as [-> ->]. auto. Qed.
Lemma le_inj n m x y : n < 2 ^ 64 -> m < 2 ^ 64 -> le 8 n ++ x = le 8 m ++ y -> n = m /\ x = y.
Proof.
  intros N M E. apply app_same in E; [|rewrite !le_length; reflexivity]. destruct E as [E ->]. split; [|reflexivity].
  rewrite <- (unle_le 8 n), <- (unle_le 8 m) by assumption. rewrite E. reflexivity.
Qed.
(** A value that fits the address space. *)
Definition addressable (f : fqdn) : Prop := N.of_nat (length f) < 2 ^ 64 /\ Forall (fun l : bytes => N.of_nat (length l) < 2 ^ 64) f.
Lemma stream_injective f g : addressable f -> addressable g -> hash_stream f = hash_stream g -> f = g.
Proof.
  intros (Lf & F) (Lg & G) E. apply le_inj in E; [|assumption..]. destruct E as [L E]. clear Lf Lg. revert g G L E. induction F as [|l f Ll F IH]; intros [|k g] G L E; try (cbn in L; lia); [reflexivity|].
  apply Forall_cons_iff in G. destruct G as [Lk G]. cbn [flat_map] in E. rewrite <- !app_assoc in E. apply le_inj in E; [|assumption..]. destruct E as [El E].
  apply app_same in E; [|lia]. destruct E as [-> E]. f_equal. apply IH; [exact G|cbn in L; lia|exact E].
Qed.

Definition text (s : string) : bytes := map N_of_ascii (list_ascii_of_string s).
Definition first_name : fqdn := [text "iipegiddkokgkpnl"; text "example"].
Definition second_name : fqdn := [text "bndljgohbgjfngij"; text "example"].
Definition two_hosts (second : fqdn) : packet :=
  mkPacket (mkheader 7 (hflags (header_new_reply 0 StandardQuery)) 1 2 0 0) [question_new first_name (QT A) QIN]
    [mkRR first_name A false CIN 300 (DA 3221225985); mkRR second A false CIN 300 (DA 3325256770)] [] [].
Lemma two_hosts_ok c : packet_ok c (two_hosts second_name).
Proof.
  split; [repeat split|]. split.
  - constructor; [|constructor]. split; [repeat constructor; cbn; lia|]. split; [|reflexivity]. split; [apply basic_exists; reflexivity|]. split; discriminate.
  - repeat constructor; try discriminate; try (apply basic_exists; reflexivity); try reflexivity; cbn; lia.
Qed.
Lemma misread : forall c : cfg, exists bs : bytes, packet_to_bytes_compressed c hash_fqdn (two_hosts second_name) = Ok bs /\
  packet_try_from c bs = Ok (two_hosts first_name).
Proof.
  intros c. destruct c as [[|] [|] o]; eexists; (split; [vm_compute; reflexivity|vm_compute; reflexivity]).
Qed.

(** ** C84: false, names with the same hash can be found *)
Theorem C84_collision_refuted : first_name <> second_name /\ legal_name first_name /\ legal_name second_name /\ hash_fqdn first_name = hash_fqdn second_name.
Proof. split; [discriminate|]. split; [repeat constructor; cbn; lia|]. split; [repeat constructor; cbn; lia|]. vm_compute. reflexivity. Qed.
(** The second host's address is received as an address of the first. *)
Theorem C84_names_refuted : forall c : cfg, exists (p p' : packet) (bs : bytes), packet_ok c p /\ counts_of p = true_counts p /\ Forall legal_name (packet_names p) /\
  packet_to_bytes_compressed c hash_fqdn p = Ok bs /\ N.of_nat (length bs) <= 16384 /\ packet_try_from c bs = Ok p' /\
  exists r, In r (records_of p') /\ ~ In r (records_of p).
Proof.
  intros c. destruct (misread c) as (bs & E & R). exists (two_hosts second_name), (two_hosts first_name), bs.
  split; [apply two_hosts_ok|]. split; [reflexivity|]. split; [repeat constructor; cbn; lia|]. split; [exact E|].
  split; [|split; [exact R|]].
  2: { exists (mkRR first_name A false CIN 300 (DA 3325256770)). split; [right; left; reflexivity|]. intros [X|[X|[]]]; discriminate X. }
  revert E. destruct c as [[|] [|] o]; intros E; vm_compute in E; injection E as <-; vm_compute; discriminate.
Qed.
(** The fault is the hash's alone: different names are different streams of octets. *)
Theorem C84_stream : forall f g : fqdn, addressable f -> addressable g -> hash_stream f = hash_stream g -> f = g.
Proof. exact stream_injective. Qed.
(** Without a collision among the tails of its names a packet is read back. *)
Theorem C84_names_partial : forall (c : cfg) (p : packet) (bs : bytes), packet_ok c p -> counts_of p = true_counts p -> hash_separates hash_fqdn (packet_names p) ->
  packet_to_bytes_compressed c hash_fqdn p = Ok bs -> N.of_nat (length bs) <= 16384 -> forall suf, packet_try_from c (bs ++ suf) = Ok p.
Proof. intros c. exact (packet_compressed c hash_fqdn). Qed.
Example C84_ex : packet_ok ex_cfg ex_packet /\ counts_of ex_packet = true_counts ex_packet /\ hash_separates hash_fqdn (packet_names ex_packet) /\
  exists bs, packet_to_bytes_compressed ex_cfg hash_fqdn ex_packet = Ok bs /\ length bs = 105%nat.
Proof.
  split; [apply plain_is_ok, ex_packet_plain|]. split; [reflexivity|]. split; [apply separates_b_true; vm_compute; reflexivity|].
  eexists. split; [vm_compute; reflexivity|reflexivity].
Qed.
(** The hash: the test vectors of the paper (SipHash-2-4), of the standard library (1-3) and one of CPython (1-3, key 0). *)
Example siphash_vectors : let key := map N.of_nat (seq 0 16) in
  siphash 2 4 (unle (firstn 8 key)) (unle (skipn 8 key)) (map N.of_nat (seq 0 15)) = 11613035633349379557 /\
  siphash 1 3 (unle (firstn 8 key)) (unle (skipn 8 key)) [] = 12370263754033579228 /\
  siphash 1 3 0 0 (text "abcdefghij") = 17616997933159550961.
Proof. vm_compute. auto. Qed.
Print Assumptions C84_collision_refuted.
Print Assumptions C84_names_refuted.
Print Assumptions C84_stream.
Print Assumptions C84_names_partial.
