(** * Properties C05 - C15: domain names *)
From Verif Require Import Base Utf8 Buffer Fqdn BaseFacts Utf8Facts NameSpec FqdnLoop FqdnFacts WalkFacts TextFacts
  CompressSpec ChunkFacts NameProps.

(** Names used in the examples: "www.example.com", "ftp.example.com". *)
Definition ex_www : fqdn := [[119;119;119]; [101;120;97;109;112;108;101]; [99;111;109]].
Definition ex_ftp : fqdn := [[102;116;112]; [101;120;97;109;112;108;101]; [99;111;109]].
(** A hash function for the examples. *)
Definition ex_hash : hasher := fun f => unbe (fqdn_to_bytes f).

(** ** C05 *)
Theorem C05_name_roundtrip : forall (f : fqdn) (pre suf : bytes),
  Forall (fun l : bytes => 1 <= length l <= 191)%nat f ->
  let d := pre ++ fqdn_to_bytes f ++ suf in
  extract_fqdn (mkbuf d (length pre)) = (Ok f, mkbuf d (length pre + length (fqdn_to_bytes f))).
Proof. exact name_roundtrip. Qed.

Theorem C05_wire_format : forall f : fqdn, Forall (fun l : bytes => 1 <= length l <= 255)%nat f ->
  fqdn_to_bytes f = flat_map (fun l => N.of_nat (length l) :: l) f ++ [0].
Proof. exact name_wire_format. Qed.

(** Empty labels are silently dropped, labels of 192..255 octets never read back. *)
Theorem C05_empty_labels_dropped : forall (f : fqdn) (pre suf : bytes),
  Forall (fun l : bytes => length l <= 191)%nat f ->
  let d := pre ++ fqdn_to_bytes f ++ suf in
  extract_fqdn (mkbuf d (length pre)) =
  (Ok (filter nonempty f), mkbuf d (length pre + length (fqdn_to_bytes f))).
Proof. exact name_roundtrip_empty. Qed.

Theorem C05_long_label_lost : forall l : bytes, (192 <= length l <= 255)%nat ->
  fst (extract_fqdn (mkbuf (fqdn_to_bytes [l]) 0)) <> Ok [l].
Proof. exact long_label_lost. Qed.

Example C05_ex : Forall (fun l : bytes => 1 <= length l <= 191)%nat ex_www.
Proof. repeat constructor. Qed.
Example C05_ex_long : (192 <= length (repeat 97%N 192) <= 255)%nat.
Proof. rewrite repeat_length. repeat constructor. Qed.
Print Assumptions C05_name_roundtrip.
Print Assumptions C05_wire_format.
Print Assumptions C05_empty_labels_dropped.
Print Assumptions C05_long_label_lost.

(** ** C06 *)
Theorem C06_name_byte_size : forall f : fqdn, fqdn_byte_size f = length (fqdn_to_bytes f).
Proof. exact fqdn_byte_size_eq. Qed.
Example C06_ex : fqdn_byte_size ex_www = 17%nat /\ fqdn_byte_size [] = 1%nat.
Proof. split; vm_compute; reflexivity. Qed.
Print Assumptions C06_name_byte_size.

(** ** C07 *)
Theorem C07_extract_fqdn_iff : forall (d : bytes) (p : nat) (ls : list bytes) (q : nat), byte_list d ->
  (extract_fqdn (mkbuf d p) = (Ok ls, mkbuf d q) <-> name_at d 191 p ls q).
Proof. exact extract_fqdn_iff. Qed.

Theorem C07_rfc_names_accepted : forall (d : bytes) (p : nat) (ls : list bytes) (q : nat),
  rfc_name_at d p ls q -> extract_fqdn (mkbuf d p) = (Ok ls, mkbuf d q).
Proof. exact rfc_accepted. Qed.

Theorem C07_name_unique : forall (d : bytes) (p : nat) ls q ls' q', byte_list d ->
  name_at d 191 p ls q -> name_at d 191 p ls' q' -> ls = ls' /\ q = q'.
Proof. exact name_at_unique. Qed.

(** "com" at 0; "example" and a pointer to it at 5. *)
Definition ex_ptr_msg : bytes := [3;99;111;109;0; 7;101;120;97;109;112;108;101;192;0; 255].
Example C07_ex : byte_list ex_ptr_msg /\
  extract_fqdn (mkbuf ex_ptr_msg 5) = (Ok [[101;120;97;109;112;108;101]; [99;111;109]], mkbuf ex_ptr_msg 15).
Proof. split; [repeat constructor|reflexivity]. Qed.
Example C07_ex_rfc : rfc_name_at ex_ptr_msg 5 [[101;120;97;109;112;108;101]; [99;111;109]] 15.
Proof.
  apply (strict_label _ _ 5 [101;120;97;109;112;108;101]).
  - exists 7. repeat split; try discriminate. cbn. repeat constructor.
  - apply (strict_ptr ex_ptr_msg 63 13 0 [[99;111;109]] 5).
    + exists 192, 0. repeat split; discriminate.
    + apply (strict_label _ _ 0 [99;111;109]).
      * exists 3. repeat split; try discriminate. cbn. repeat constructor.
      * apply (strict_root _ _ 4). reflexivity.
    + cbn. repeat constructor.
Qed.
Print Assumptions C07_extract_fqdn_iff.
Print Assumptions C07_rfc_names_accepted.
Print Assumptions C07_name_unique.

(** ** C08: false as stated *)
Theorem C08_termination_refuted :
  exists (d : bytes) (p : nat), byte_list d /\ forall fuel, fst (fqdn_loop d fuel [] None p) = Diverge.
Proof. exists [192; 0], 0%nat. split; [repeat constructor|exact loop_forever]. Qed.

(** Memory grows without bound: [d] is a message for which, for every [n], the loop comes to hold [n]
    labels and goes on. *)
Theorem C08_memory_refuted :
  exists (d : bytes) (p : nat), byte_list d /\ forall n, exists k org p', forall fuel,
    fqdn_loop d (k + fuel) [] None p = fqdn_loop d fuel (repeat [97] (S n)) org p'.
Proof.
  exists [1; 97; 192; 0], 0%nat. split; [repeat constructor|].
  intros n. exists (2 * S n)%nat, (Some 3%nat), 0%nat. intros fuel. apply grows_unbounded.
Qed.

(** It loops for ever exactly on the names that run in a circle. *)
Theorem C08_diverges_iff_partial : forall (d : bytes) (p : nat), byte_list d ->
  ((forall fuel, fst (fqdn_loop d fuel [] None p) = Diverge) <-> circular d p).
Proof.
  intros d p H. rewrite <- (fqdn_diverge_iff d p H). unfold extract_fqdn. cbn [data pos]. split.
  - intros F. specialize (F (fqdn_fuel d)). destruct (fqdn_loop _ _ _ _ _). exact F.
  - intros E. apply diverge_forever. destruct (fqdn_loop _ _ _ _ _). exact E.
Qed.

(** Messages without compression pointers always terminate. *)
Theorem C08_no_pointer_terminates_partial : forall (d : bytes) (p : nat), Forall (fun b => b < 192) d ->
  fst (extract_fqdn (mkbuf d p)) <> Diverge.
Proof. exact no_pointer_terminates. Qed.

Example C08_ex : Forall (fun b => b < 192) (fqdn_to_bytes ex_www).
Proof. repeat constructor. Qed.
Example C08_ex_circular : circular [1; 97; 192; 0] 0.
Proof. apply fqdn_diverge_iff; [repeat constructor|]. vm_compute. reflexivity. Qed.
Example C08_ex_not_circular : ~ circular ex_ptr_msg 5.
Proof. rewrite <- fqdn_diverge_iff by repeat constructor. vm_compute. discriminate. Qed.
Print Assumptions C08_termination_refuted.
Print Assumptions C08_memory_refuted.
Print Assumptions C08_diverges_iff_partial.
Print Assumptions C08_no_pointer_terminates_partial.

(** ** C09: false as stated *)
Theorem C09_panic_refuted : exists (d : bytes) (p : nat),
  byte_list d /\ (p <= length d)%nat /\ fst (extract_fqdn (mkbuf d p)) = Panic.
Proof. exists [1], 0%nat. repeat split; repeat constructor. Qed.

Theorem C09_panics_iff_partial : forall (d : bytes) (p : nat), byte_list d ->
  (fst (extract_fqdn (mkbuf d p)) = Panic <-> runs_off d p).
Proof. exact fqdn_panic_iff. Qed.
Example C09_ex : runs_off [3; 97; 98] 0 /\ ~ runs_off [3; 97] 0 /\ ~ runs_off ex_ptr_msg 5.
Proof.
  rewrite <- !fqdn_panic_iff by repeat constructor. repeat split; vm_compute; congruence.
Qed.
Print Assumptions C09_panic_refuted.
Print Assumptions C09_panics_iff_partial.

(** ** C10 *)
Theorem C10_labels : forall s : bytes, Forall (fun l => l <> [] /\ ~ In 46 l) (fqdn_new s).
Proof. exact fqdn_new_labels. Qed.
(** [s] cut at its dots: the empty pieces are dropped, the others are the labels, in order. *)
Theorem C10_pieces : forall ls : list bytes, Forall (fun l => ~ In 46 l) ls ->
  fqdn_new (match ls with [] => [] | l :: r => l ++ flat_map (fun x => 46 :: x) r end) =
  filter nonempty ls.
Proof. exact fqdn_new_pieces. Qed.
Theorem C10_display : forall (l : bytes) (f : fqdn),
  fqdn_display [] = [] /\ fqdn_display (l :: f) = l ++ flat_map (fun x => 46 :: x) f.
Proof. intros l f. split; [reflexivity|apply display_cons]. Qed.
Theorem C10_stable : forall s : bytes, fqdn_new (fqdn_display (fqdn_new s)) = fqdn_new s.
Proof. exact new_to_string. Qed.
Theorem C10_dots : forall a b : bytes,
  fqdn_new (46 :: a) = fqdn_new a /\ fqdn_new (a ++ [46]) = fqdn_new a /\
  fqdn_new (a ++ 46 :: 46 :: b) = fqdn_new (a ++ 46 :: b).
Proof. exact dots_irrelevant. Qed.
Theorem C10_display_injective : forall f : fqdn, Forall (fun l => l <> [] /\ ~ In 46 l) f ->
  fqdn_new (fqdn_display f) = f.
Proof. exact fqdn_new_display. Qed.
Example C10_ex : fqdn_new (46 :: fqdn_display ex_www ++ [46]) = ex_www /\
  Forall (fun l => l <> [] /\ ~ In 46 l) ex_www.
Proof. split; [reflexivity|]. repeat constructor; try discriminate; cbn; intuition discriminate. Qed.
Print Assumptions C10_labels.
Print Assumptions C10_pieces.
Print Assumptions C10_display.
Print Assumptions C10_stable.
Print Assumptions C10_dots.
Print Assumptions C10_display_injective.

(** ** C11 *)
Theorem C11_is_root : forall f : fqdn,
  (fqdn_is_root f = true <-> Forall (fun l => l = []) f) /\
  (fqdn_is_root f = true <-> fqdn_to_bytes f = [0]).
Proof. intros f. split; [apply is_root_labels|apply is_root_bytes]. Qed.
Theorem C11_is_link_local : forall f : fqdn,
  fqdn_is_link_local f = true <-> exists f', f = f' ++ [[108; 111; 99; 97; 108]].
Proof. exact is_link_local_iff. Qed.
Theorem C11_label_count : forall f : fqdn, (length f <= 255)%nat -> fqdn_label_count f = N.of_nat (length f).
Proof. exact label_count_small. Qed.
(** [is_empty] is never true, not even for the name without labels. *)
Theorem C11_is_empty_refuted : exists f : fqdn, f = [] /\ fqdn_is_empty f = false.
Proof. exists []. split; [reflexivity|apply is_empty_false]. Qed.
Theorem C11_is_empty_never : forall f : fqdn, fqdn_is_empty f = false.
Proof. exact is_empty_false. Qed.
Example C11_ex : fqdn_is_root [] = true /\ fqdn_is_root ex_www = false /\
  fqdn_is_link_local [[97]; [108; 111; 99; 97; 108]] = true /\ fqdn_is_link_local ex_www = false /\
  fqdn_label_count ex_www = 3.
Proof. repeat split. Qed.
Print Assumptions C11_is_root.
Print Assumptions C11_is_link_local.
Print Assumptions C11_label_count.
Print Assumptions C11_is_empty_refuted.
Print Assumptions C11_is_empty_never.

(** ** C12: false for parsed names, true for names built from text *)
Theorem C12_display_utf8_refuted : exists (d : bytes) (f : fqdn) (q : nat),
  byte_list d /\ extract_fqdn (mkbuf d 0) = (Ok f, mkbuf d q) /\ ~ is_text (fqdn_display f).
Proof.
  exists [1; 255; 0], [[255]], 3%nat. split; [repeat constructor|]. split; [reflexivity|].
  intros H. apply utf8_valid_iff in H. vm_compute in H. discriminate.
Qed.
Theorem C12_from_text_partial : forall s : bytes, is_text s ->
  Forall is_text (fqdn_new s) /\ is_text (fqdn_display (fqdn_new s)).
Proof. intros s H. split; [|apply display_text]; apply fqdn_new_text, H. Qed.
Theorem C12_text_labels_partial : forall f : fqdn, Forall is_text f -> is_text (fqdn_display f).
Proof. exact display_text. Qed.
(** Exactly which names print as valid text. *)
Theorem C12_display_iff_partial : forall f : fqdn, is_text (fqdn_display f) <-> Forall is_text f.
Proof. exact display_text_iff. Qed.
Example C12_ex_iff : is_text (fqdn_display [[195; 164; 46; 97]; [98]]) /\ ~ is_text (fqdn_display [[195]; [164]]).
Proof. split; [apply utf8_valid_iff; reflexivity|intros H; apply utf8_valid_iff in H; discriminate H]. Qed.
Example C12_ex : is_text [195; 164; 46; 97].
Proof. apply utf8_valid_iff. reflexivity. Qed.
Print Assumptions C12_display_utf8_refuted.
Print Assumptions C12_from_text_partial.
Print Assumptions C12_text_labels_partial.
Print Assumptions C12_display_iff_partial.

(** ** C13 *)
Theorem C13_compressed_roundtrip : forall (h : hasher) (cs : list chunk) (ml : N) (w : bytes) marks (suf : bytes),
  ml <= 191 ->
  hash_separates h (names_of cs) ->
  Forall (fun f => Forall (fun l : bytes => 1 <= N.of_nat (length l) <= ml) f) (names_of cs) ->
  write_chunks h cs [] [] = (w, marks) -> N.of_nat (length w) <= 16384 ->
  Forall (fun x => let '(p, f, q) := x in
            strict_name_at w ml p f q /\
            extract_fqdn (mkbuf (w ++ suf) p) = (Ok f, mkbuf (w ++ suf) q)) marks.
Proof. exact write_chunks_read. Qed.
(** Every name of the message is among the marks. *)
Theorem C13_marks_complete : forall (h : hasher) (cs : list chunk) w m,
  map (fun x => snd (fst x)) (snd (write_chunks h cs w m)) = names_of cs.
Proof. exact write_chunks_names. Qed.
Definition ex_chunks : list chunk := [Raw [1;2;3]; Name ex_www; Raw [9]; Name ex_ftp; Name ex_www].
Example C13_ex : hash_separates ex_hash (names_of ex_chunks) /\
  Forall (fun f => Forall (fun l : bytes => 1 <= N.of_nat (length l) <= 63) f) (names_of ex_chunks) /\
  length (fst (write_chunks ex_hash ex_chunks [] [])) = 29%nat.
Proof.
  split; [apply separates_b_true; reflexivity|]. split; [|reflexivity].
  repeat constructor; discriminate.
Qed.
Print Assumptions C13_compressed_roundtrip.
Print Assumptions C13_marks_complete.

(** ** C14: false as stated; each side condition of C13 is needed *)
Theorem C14_offset_refuted : exists cs : list chunk, forall h : hasher,
  Forall (fun f => Forall (fun l : bytes => 1 <= N.of_nat (length l) <= 63) f) (names_of cs) /\
  ~ all_read_back h cs.
Proof.
  exists (far_chunks (repeat 0 (N.to_nat 16383))). intros h. split; [repeat constructor; discriminate|].
  apply far_fails. rewrite repeat_length. apply N2Nat.id.
Qed.
Theorem C14_empty_label_refuted : exists cs : list chunk, forall h : hasher, ~ all_read_back h cs.
Proof. exists [Name [[]; [97]]]. exact empty_label_fails. Qed.
Theorem C14_collision_refuted : exists (h : hasher) (cs : list chunk),
  Forall (fun f => Forall (fun l : bytes => 1 <= N.of_nat (length l) <= 63) f) (names_of cs) /\
  ~ all_read_back h cs.
Proof.
  exists (fun _ => 7), [Name [[97]]; Name [[98]]]. split; [repeat constructor; discriminate|exact collision_fails].
Qed.
(** With the three side conditions it holds. *)
Theorem C14_safe_partial : forall (h : hasher) (cs : list chunk),
  hash_separates h (names_of cs) ->
  Forall (fun f => Forall (fun l : bytes => 1 <= N.of_nat (length l) <= 191) f) (names_of cs) ->
  N.of_nat (length (fst (write_chunks h cs [] []))) <= 16384 ->
  all_read_back h cs.
Proof.
  intros h cs HS HL HN. unfold all_read_back.
  destruct (write_chunks h cs [] []) as [w marks] eqn:E.
  pose proof (write_chunks_read h cs 191 w marks [] (N.le_refl _) HS HL E HN) as F.
  eapply Forall_impl; [|exact F]. intros [[p f] q] [_ H]. rewrite app_nil_r in H. exact H.
Qed.
Example C14_ex : hash_separates ex_hash (names_of ex_chunks) /\
  Forall (fun f => Forall (fun l : bytes => 1 <= N.of_nat (length l) <= 191) f) (names_of ex_chunks) /\
  N.of_nat (length (fst (write_chunks ex_hash ex_chunks [] []))) <= 16384.
Proof.
  split; [apply separates_b_true; reflexivity|]. split; [repeat constructor; discriminate|discriminate].
Qed.
Print Assumptions C14_offset_refuted.
Print Assumptions C14_empty_label_refuted.
Print Assumptions C14_collision_refuted.
Print Assumptions C14_safe_partial.

(** ** C15 *)
Theorem C15_not_longer : forall (h : hasher) (f : fqdn), Forall (fun l => nonempty l = true) f ->
  forall (m : names) (off : nat),
  (length (fst (fqdn_to_bytes_compressed h f m off)) <= length (fqdn_to_bytes f))%nat.
Proof. exact compressed_not_longer. Qed.
Theorem C15_size : forall (h : hasher) (f : fqdn) (m : names) (off : nat),
  fqdn_byte_size_compressed h f m off =
  (length (fst (fqdn_to_bytes_compressed h f m off)), snd (fqdn_to_bytes_compressed h f m off)).
Proof. exact compressed_size. Qed.
Example C15_ex : Forall (fun l => nonempty l = true) ex_www /\
  length (fst (fqdn_to_bytes_compressed ex_hash ex_www [(ex_hash (tl ex_www), 12%nat)] 30)) = 6%nat.
Proof. split; [repeat constructor|reflexivity]. Qed.
Print Assumptions C15_not_longer.
Print Assumptions C15_size.
