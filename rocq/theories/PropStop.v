(** * C36, exactly: which messages make parsing panic or never end *)
From Coq Require Import Lia.
From Verif Require Import Base Buffer Fqdn Types RDataBasic Svcb RDataSec RData Packet BaseFacts NameSpec CodeSpec WireSpec FailSpec FieldSpec SvcbParse ReadSpec StopSpec MdnsFacts StopFacts.

(** Parsing a message panics, or never ends, exactly if [message_stops] says so; that specification is
    about the raw octets only. *)
Theorem C36_exact_partial : forall (f : failure) (c : cfg) (d : bytes), byte_list d -> allocatable d ->
  (fails f (packet_try_from c d) <-> message_stops f c d).
Proof. exact message_stops_iff. Qed.
Theorem C36_exact_returns_partial : forall (c : cfg) (d : bytes), byte_list d -> allocatable d ->
  ((exists p, packet_try_from c d = Ok p) \/ (exists e, packet_try_from c d = Err e) <-> ~ message_stops Panics c d /\ ~ message_stops Loops c d).
Proof. exact message_returns_iff. Qed.
(** Parsing the data of a record of type [t] at [q] panics, or never ends, exactly if [data_stops] says so. *)
Theorem C36_data_exact_partial : forall (f : failure) (c : cfg) (t : rtype) (w : bytes) (q : nat), byte_list w -> allocatable w -> (q <= length w)%nat ->
  (fails f (fst (rdata_from c t (mkbuf w q))) <-> data_stops f c w t q).
Proof. intros f c t w q B A L. exact (rdata_stops c w B A t f q L). Qed.

(** A rendezvous server of HIP that points to itself, behind one that is fine; an NSEC bitmap that marks
    TXT and number 65536; an SVCB record with a list of keys of three octets; data that is fine. *)
Definition ex_checked : cfg := mkcfg true true true.
Definition ex_hip : bytes := [1; 2; 0; 1; 7; 9; 1; 97; 0; 192; 9].
Definition ex_nsec : bytes := [0; 0; 3; 0; 0; 128] ++ [255; 33] ++ repeat 0 32 ++ [128].
Definition ex_svcb : bytes := [0; 1; 0; 0; 0; 0; 3; 0; 1; 0; 3].
Example C36_ex_exact :
  data_stops Loops ex_checked ex_hip HIP 0 /\ data_stops Panics ex_checked ex_nsec NSEC 0 /\ data_stops Panics ex_checked ex_svcb SVCB 0 /\
  ~ data_stops Panics ex_checked [0; 1; 0; 0; 0; 0; 2; 0; 1] SVCB 0.
Proof.
  assert (A : forall w : bytes, (length w <= 100)%nat -> allocatable w) by (intros w L; unfold allocatable, M64; lia).
  split; [|split; [|split]].
  - exists 1, 1, 6%nat. split.
    + cbn [laid]. exists 1%nat. split; [repeat split; cbn; lia|]. exists 2%nat. split; [exists AlgDSA; repeat split; cbn; lia|]. exists 4%nat. split; [repeat split; cbn; lia|].
      exists 5%nat. split; [split; [reflexivity|cbn; lia]|]. exists 6%nat. split; [split; [reflexivity|cbn; lia]|]. reflexivity.
    + exists [[[97]]], 9%nat. split; [|split; [cbn; lia|apply self_pointer; exists 192, 9; cbn; repeat split; try lia; discriminate]].
      apply (one_more _ 6 [[97]] 9); [|lia|constructor]. apply (name_label _ _ 6 [97] [] 9).
      * exists 1. cbn. repeat split; try lia; discriminate.
      * apply (name_root _ _ 8). reflexivity.
  - apply (C36_data_exact_partial Panics ex_checked NSEC ex_nsec 0); [repeat constructor|apply A; cbn; lia|cbn; lia|vm_compute; reflexivity].
  - apply (C36_data_exact_partial Panics ex_checked SVCB ex_svcb 0); [repeat constructor|apply A; cbn; lia|cbn; lia|vm_compute; reflexivity].
  - intros H. apply (C36_data_exact_partial Panics ex_checked SVCB) in H; [|repeat constructor|apply A; cbn; lia|cbn; lia]. vm_compute in H. discriminate.
Qed.
Print Assumptions C36_exact_partial.
Print Assumptions C36_exact_returns_partial.
Print Assumptions C36_data_exact_partial.
