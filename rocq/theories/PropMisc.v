(** * C73, C74: chains of errors; ways of making a name. *)
From Coq Require Import Lia ZifyNat ZifyN.
From Verif Require Import Base Buffer Fqdn Header Types RDataBasic Bitmap Svcb RDataSec RData Packet BaseFacts BufferFacts FqdnFacts NameSpec Misc PropName.

(** ** C73: false: the cause of an error is the error itself *)
(** The cause of the cause ..., [n] times; [None] once the chain has ended. *)
Fixpoint cause (n : nat) (e : dns_error) : option dns_error :=
  match n with
  | O => Some e
  | S n => match error_source e with Some e' => cause n e' | None => None end
  end.
Theorem C73_chain_refuted : forall (e : dns_error) (n : nat), cause n e = Some e.
Proof. intros e n. induction n as [|n IH]; [reflexivity|exact IH]. Qed.
Example C73_ex : cause 3 (InvalidType 43) = Some (InvalidType 43).
Proof. reflexivity. Qed.
Print Assumptions C73_chain_refuted.

(** ** C74 *)
(** Labels that can be written in a dotted text. *)
Definition dotless (l : bytes) : Prop := l <> [] /\ ~ In 46 l.
Fixpoint dotted (ls : list bytes) : bytes :=
  match ls with
  | [] => []
  | [l] => l
  | l :: r => l ++ [46] ++ dotted r
  end.
Lemma dotted_display ls : dotted ls = fqdn_display ls.
Proof. induction ls as [|l [|r ls] IH]; [reflexivity|reflexivity|]. change (dotted (l :: r :: ls)) with (l ++ [46] ++ dotted (r :: ls)). rewrite IH. reflexivity. Qed.
Theorem C74_ways_partial : forall ls : list bytes, Forall dotless ls ->
  fqdn_new (dotted ls) = ls /\ fqdn_from_str (dotted ls) = ls /\ fqdn_new (dotted ls ++ [46]) = ls /\ fqdn_display (fqdn_new (dotted ls)) = dotted ls.
Proof.
  intros ls H. rewrite dotted_display. destruct (C10_dots (fqdn_display ls) []) as (_ & D & _).
  rewrite D. unfold fqdn_from_str. rewrite (C10_display_injective ls H). auto.
Qed.
(** Without the text: every list of labels, in every way, and back. *)
Theorem C74_labels : forall ls : list bytes, fqdn_from_strs ls = ls /\ fqdn_from_vec ls = ls /\ fqdn_from_slice ls = ls /\
  fold_left fqdn_append_label ls (fqdn_new []) = ls /\ fqdn_iter (fqdn_from_vec ls) = ls /\ fqdn_into_iter (fqdn_from_vec ls) = ls.
Proof.
  intros ls. split; [apply map_id|]. do 2 (split; [reflexivity|]). split; [|split; reflexivity].
  change (fqdn_new []) with (@nil bytes). change ls with ([] ++ ls) at 2. generalize (@nil bytes). induction ls as [|l ls IH]; intros f; cbn [fold_left]; [symmetry; apply app_nil_r|].
  rewrite IH. unfold fqdn_append_label. rewrite <- app_assoc. reflexivity.
Qed.
(** A label appended: in the octets before the final root octet, in the text behind a dot. *)
Theorem C74_append : forall (f : fqdn) (l : bytes), (0 < length l < 256)%nat ->
  (exists w, fqdn_to_bytes f = w ++ [0] /\ fqdn_to_bytes (fqdn_append_label f l) = w ++ N.of_nat (length l) :: l ++ [0]) /\
  fqdn_display (fqdn_append_label f l) = match f with [] => l | _ => fqdn_display f ++ [46] ++ l end /\
  fqdn_byte_size (fqdn_append_label f l) = (fqdn_byte_size f + 1 + length l)%nat.
Proof.
  intros f l L. assert (N : nonempty l = true) by (destruct l; [cbn in L; lia|reflexivity]). split; [|split].
  - eexists. split; [reflexivity|]. unfold fqdn_to_bytes, fqdn_append_label. rewrite fold_left_app. cbn [fold_left]. rewrite N.
    rewrite <- app_assoc. cbn [app]. f_equal. f_equal. unfold len8, u8. rewrite N.mod_small by lia. reflexivity.
  - unfold fqdn_append_label. destruct f as [|x f]; [reflexivity|]. revert x. induction f as [|y f IH]; intros x; [reflexivity|].
    cbn [app fqdn_display] in *. rewrite IH. rewrite <- app_assoc. reflexivity.
  - unfold fqdn_byte_size, fqdn_append_label. rewrite fold_left_app. cbn [fold_left]. rewrite N. lia.
Qed.
(** Labels replaced through the mutable iterator: each in its place. *)
Theorem C74_iter_mut : forall (g : nat -> bytes -> bytes) (f : fqdn) (i : nat), (i < length f)%nat ->
  length (fqdn_iter_mut g f) = length f /\ nth i (fqdn_iter_mut g f) [] = g i (nth i f []).
Proof.
  intros g f i L. unfold fqdn_iter_mut. assert (E : length (combine (seq 0 (length f)) f) = length f) by (rewrite combine_length, seq_length; lia).
  split; [rewrite map_length; exact E|]. rewrite (nth_indep _ [] (g (fst (0%nat, @nil N)) (snd (0%nat, @nil N)))) by (rewrite map_length; lia).
  rewrite (map_nth (fun p : nat * bytes => g (fst p) (snd p))). rewrite combine_nth by apply seq_length. cbn [fst snd]. rewrite seq_nth by exact L. reflexivity.
Qed.
(** False for labels with dots and for empty labels: the same text, another name. *)
Theorem C74_dot_refuted : exists f : fqdn, f = fqdn_from_strs [[97; 46; 98]] /\ fqdn_display f = fqdn_display (fqdn_new [97; 46; 98]) /\
  fqdn_to_bytes f <> fqdn_to_bytes (fqdn_new [97; 46; 98]).
Proof. eexists. split; [reflexivity|]. split; [reflexivity|discriminate]. Qed.
Theorem C74_empty_refuted : exists f : fqdn, f = fqdn_from_strs [[97]; []] /\ fqdn_to_bytes f = fqdn_to_bytes (fqdn_new [97]) /\ f <> fqdn_new [97] /\
  fqdn_label_count f <> fqdn_label_count (fqdn_new [97]).
Proof. eexists. split; [reflexivity|]. split; [reflexivity|]. split; discriminate. Qed.
Example C74_ex : Forall dotless ex_www /\ (0 < length [99; 111; 109] < 256)%nat.
Proof. split; [repeat constructor; try discriminate; cbn; intuition discriminate|cbn; lia]. Qed.
Print Assumptions C74_ways_partial.
Print Assumptions C74_labels.
Print Assumptions C74_append.
Print Assumptions C74_iter_mut.
Print Assumptions C74_dot_refuted.
Print Assumptions C74_empty_refuted.
