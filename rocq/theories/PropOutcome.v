(** * Property C89: the octets alone decide what parsing does *)
From Coq Require Import Lia.
From Verif Require Import Base Buffer Fqdn Types RDataBasic Svcb RDataSec RData Packet BaseFacts NameSpec CodeSpec WireSpec FailSpec FieldSpec SvcbParse
  ReadSpec ReadFacts StopSpec StopFacts ErrSpec ErrFacts RDataReads ParseFacts PropRecord PropWire PropError.

(** A name at [p] of the message [d]. *)
Theorem C89_name : forall (d : bytes) (p : nat) (r : res fqdn), byte_list d -> (p <= length d)%nat ->
  (fst (extract_fqdn (mkbuf d p)) = r <-> match r with
    | Ok ls => exists q, name_at d 191 p ls q
    | Err e => name_fault d e p
    | Panic => runs_off d p
    | Diverge => circular d p
    end).
Proof.
  intros d p r B L. destruct r as [ls|e| |].
  - split.
    + intros H. destruct (extract_fqdn (mkbuf d p)) as [r b] eqn:E. cbn [fst] in H. subst r. apply dec_name in E; [|exact B|exact L].
      destruct E as (q & N & _). exists q. exact N.
    + intros (q & N). assert (E : extract_fqdn (mkbuf d p) = (Ok ls, mkbuf d q)).
      { apply dec_name; [exact B|exact L|]. exists q. split; [exact N|]. split; [|reflexivity]. apply (name_at_end _ _ _ _ N). }
      rewrite E. reflexivity.
  - exact (errs_name d B e p L).
  - exact (stops_name d B Panics p L).
  - exact (stops_name d B Loops p L).
Qed.
(** Record data of type [t] at [q] of the message [w], which ends where the record ends. *)
Theorem C89_data : forall (c : cfg) (t : rtype) (w : bytes) (q : nat) (r : res rdata), byte_list w -> allocatable w -> (q <= length w)%nat ->
  (fst (rdata_from c t (mkbuf w q)) = r <-> match r with
    | Ok x => exists e, rdata_type x = t /\ laid (pieces w c x) q e /\ (e <= length w)%nat
    | Err e => first_fault (data_parts c w t) e q
    | Panic => data_stops Panics c w t q
    | Diverge => data_stops Loops c w t q
    end).
Proof.
  intros c t w q r B A L. destruct r as [x|e| |].
  - split.
    + intros H. destruct (rdata_from c t (mkbuf w q)) as [r b] eqn:E. cbn [fst] in H. subst r. apply C27_data in E; [|assumption..].
      destruct E as (e & (T & P) & Le & _). exists e. auto.
    + intros (e & T & P & Le). assert (E : rdata_from c t (mkbuf w q) = (Ok x, mkbuf w e)) by (apply C27_data; [assumption..|]; exists e; auto).
      rewrite E. reflexivity.
  - exact (rdata_errs c w B A t e q L).
  - exact (rdata_stops c w B A t Panics q L).
  - exact (rdata_stops c w B A t Loops q L).
Qed.
(** A whole message. *)
Theorem C89_message : forall (c : cfg) (d : bytes) (r : res packet), byte_list d -> allocatable d ->
  (packet_try_from c d = r <-> match r with
    | Ok p => exists e, packet_on_wire c d p e
    | Err e => message_fault c d e
    | Panic => message_stops Panics c d
    | Diverge => message_stops Loops c d
    end).
Proof. exact C67_cases_partial. Qed.
(** So for every message there is exactly one packet it says, or exactly one error, or one way not to return. *)
Theorem C89_one : forall (c : cfg) (d : bytes), byte_list d -> allocatable d ->
  exists! r : res packet, match r with
    | Ok p => exists e, packet_on_wire c d p e
    | Err e => message_fault c d e
    | Panic => message_stops Panics c d
    | Diverge => message_stops Loops c d
    end.
Proof.
  intros c d B A. exists (packet_try_from c d). split.
  - apply C89_message; [assumption..|reflexivity].
  - intros r H. apply C89_message in H; assumption.
Qed.
(** All four happen to names, and to messages with one answer, here of type NS: a name, a pointer forward, nothing, a pointer to itself. *)
Definition ns_answer (data : bytes) : bytes := one_answer 2 data.
Example C89_ex :
  (exists q, name_at [1; 97; 0] 191 0 [[97]] q) /\ name_fault [192; 9; 0] UnresolveableCompressionPointer 0 /\ runs_off [1; 97] 0 /\ circular [192; 0] 0 /\
  (exists p e, packet_on_wire ex_cfg (ns_answer [1; 97; 0]) p e) /\ message_fault ex_cfg (ns_answer [192; 40; 0]) UnresolveableCompressionPointer /\
  message_stops Panics ex_cfg (ns_answer [1; 97]) /\ message_stops Loops ex_cfg (ns_answer [192; 23]).
Proof.
  split; [apply (C89_name [1; 97; 0] 0 (Ok [[97]])); [repeat constructor|cbn; lia|reflexivity]|].
  split; [apply (C89_name [192; 9; 0] 0 (Err UnresolveableCompressionPointer)); [repeat constructor|cbn; lia|reflexivity]|].
  split; [apply (C89_name [1; 97] 0 Panic); [repeat constructor|cbn; lia|reflexivity]|].
  split; [apply (C89_name [192; 0] 0 Diverge); [repeat constructor|cbn; lia|vm_compute; reflexivity]|].
  split; [eexists; apply (C89_message ex_cfg _ (Ok _)); [repeat constructor|vm_compute; discriminate|vm_compute; reflexivity]|].
  split; [apply (C89_message ex_cfg _ (Err _)); [repeat constructor|vm_compute; discriminate|vm_compute; reflexivity]|].
  split; [apply (C89_message ex_cfg _ Panic)|apply (C89_message ex_cfg _ Diverge)]; [repeat constructor|vm_compute; discriminate|vm_compute; reflexivity|
    repeat constructor|vm_compute; discriminate|vm_compute; reflexivity].
Qed.
Print Assumptions C89_name.
Print Assumptions C89_data.
Print Assumptions C89_message.
Print Assumptions C89_one.
