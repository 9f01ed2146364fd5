(** * C86: the text of an error *)
From Coq Require Import Lia ZifyNat ZifyN String.
From Verif Require Import Base Buffer Fqdn Types RDataBasic Svcb RDataSec RData Packet BaseFacts NameSpec WireSpec FailSpec SvcbParse ErrSpec ErrorText PropError PropRecord.
Open Scope list_scope.
Open Scope N_scope.

(** The number that a string of decimal digits stands for. *)
Definition number_of (s : bytes) : N := fold_left (fun n c => 10 * n + (c - 48)) s 0.
Lemma digits_number fuel : forall n, n < 2 ^ N.of_nat fuel -> number_of (decimal_digits fuel n) = n.
Proof.
  induction fuel as [|fuel IH]; intros n L; [cbn in *; lia|]. cbn [decimal_digits]. unfold number_of in *. rewrite fold_left_app. cbn [fold_left].
  pose proof (N.div_mod n 10 ltac:(lia)) as D. destruct (n <? 10) eqn:E.
  - apply N.ltb_lt in E. cbn [fold_left]. rewrite N.mod_small by exact E. lia.
  - rewrite IH; [lia|]. replace (N.of_nat (S fuel)) with (N.succ (N.of_nat fuel)) in L by lia. rewrite N.pow_succ_r' in L. apply N.div_lt_upper_bound; lia.
Qed.
Lemma decimal_number n : number_of (decimal n) = n.
Proof.
  apply digits_number. destruct (N.eq_dec n 0) as [->|E]; [reflexivity|]. pose proof (N.log2_spec n ltac:(lia)) as [_ H].
  replace (N.of_nat (S (N.to_nat (N.log2 n)))) with (N.succ (N.log2 n)) by lia. exact H.
Qed.
Lemma decimal_inj a b : decimal a ++ [41] = decimal b ++ [41] -> a = b.
Proof. intros E. apply app_inj_tail in E. destruct E as [E _]. rewrite <- (decimal_number a), <- (decimal_number b), E. reflexivity. Qed.
Lemma text_injective e e' d d' : error_display e d = error_display e' d' -> e = e'.
Proof.
  unfold error_display. intros E. apply app_inv_head in E.
  destruct e, e'; lazy -[decimal app] in E; cbn [app] in E; try discriminate E; try reflexivity;
    repeat (match type of E with _ :: _ = _ :: _ => apply (f_equal (@tl N)) in E; cbn [tl] in E end); apply decimal_inj in E; congruence.
Qed.
Definition digit (x : N) : Prop := 48 <= x <= 57.
Lemma digits_digit fuel : forall n, Forall digit (decimal_digits fuel n).
Proof.
  induction fuel as [|fuel IH]; intros n; [constructor|]. cbn [decimal_digits]. apply Forall_app. split; [destruct (n <? 10); [constructor|apply IH]|].
  constructor; [|constructor]. pose proof (N.mod_lt n 10 ltac:(lia)). unfold digit. lia.
Qed.
Lemma digits_first fuel : forall n, n < 2 ^ N.of_nat fuel -> n <> 0 -> exists x s, decimal_digits fuel n = x :: s /\ x <> 48.
Proof.
  induction fuel as [|fuel IH]; intros n L Z; [cbn in L; lia|]. cbn [decimal_digits]. destruct (n <? 10) eqn:E.
  - apply N.ltb_lt in E. rewrite N.mod_small by exact E. exists (48 + n), []. split; [reflexivity|lia].
  - apply N.ltb_ge in E. destruct (IH (n / 10)) as (x & s & -> & D).
    + replace (N.of_nat (S fuel)) with (N.succ (N.of_nat fuel)) in L by lia. rewrite N.pow_succ_r' in L. apply N.div_lt_upper_bound; lia.
    + pose proof (N.div_str_pos n 10). lia.
    + exists x, (s ++ [48 + n mod 10]). split; [reflexivity|exact D].
Qed.
(** The text of a number as people write it: [n] is its value, and it does not start with 0 unless it is "0". *)
Definition numeral (n : N) (s : bytes) : Prop := Forall digit s /\ s <> [] /\ number_of s = n /\ (hd 0 s = 48 -> s = [48]).
Lemma decimal_numeral n : numeral n (decimal n).
Proof.
  split; [apply digits_digit|]. destruct (N.eq_dec n 0) as [->|Z]; [split; [discriminate|]; split; [reflexivity|auto]|].
  destruct (digits_first (S (N.to_nat (N.log2 n))) n) as (x & s & E & D); [|exact Z|].
  - pose proof (N.log2_spec n ltac:(lia)) as [_ H]. replace (N.of_nat (S (N.to_nat (N.log2 n)))) with (N.succ (N.log2 n)) by lia. exact H.
  - fold (decimal n) in E. split; [rewrite E; discriminate|]. split; [apply decimal_number|]. rewrite E. cbn [hd]. intros X. contradiction.
Qed.
(** The number an error carries. *)
Definition carries (e : dns_error) : option N :=
  match e with
  | InvalidClass n | InvalidType n | InvalidResponseCode n | InvalidAplFamily n | InvalidCsyncFlag n | InvalidSSHFPAlgorithm n | InvalidSSHFPFingerprintType n
  | InvalidIpSecKeyGatewayType n | InvalidNaptrFlag n | InvalidTkeyMode n | InvalidTkeyError n | InvalidIdentifierTypeError n | InvalidTLSACertUsage n
  | InvalidTLSASelector n | InvalidTLSAMatchingType n | InvalidSvcbParam n | InvalidDigestType n | InvalidDnsSecAlgorithm n => Some n
  | _ => None
  end.
Lemma display_number e n detail : carries e = Some n -> exists name s, error_display e detail = ascii_text "DnsError: " ++ ascii_text name ++ ascii_text "(" ++ s ++ ascii_text ")" /\ numeral n s.
Proof.
  destruct e; cbn [carries]; intros E; try discriminate E; injection E as <-; unfold error_display, error_debug, with_payload;
    (eexists; eexists; split; [reflexivity|apply decimal_numeral]).
Qed.
Definition printable (x : N) : Prop := 32 <= x <= 126.
Lemma decimal_printable n : Forall printable (decimal n).
Proof. eapply Forall_impl; [|apply digits_digit]. unfold digit, printable. lia. Qed.
Lemma ascii_printable s : forallb (fun x => (32 <=? x) && (x <=? 126)) (ascii_text s) = true -> Forall printable (ascii_text s).
Proof. intros H. apply Forall_forall. intros x I. rewrite forallb_forall in H. specialize (H x I). apply andb_prop in H. unfold printable. lia. Qed.
Lemma display_printable e detail : Forall printable detail -> Forall printable (error_display e detail).
Proof.
  intros D. unfold error_display. apply Forall_app. split; [apply ascii_printable; reflexivity|].
  destruct e; unfold error_debug, with_payload; rewrite ?Forall_app; repeat split; try (apply ascii_printable; reflexivity); try apply decimal_printable; try exact D;
    repeat constructor; discriminate.
Qed.

(** ** C86: errors that differ have different texts *)
Theorem C86_text : forall (e e' : dns_error) (detail detail' : bytes), error_display e detail = error_display e' detail' -> e = e'.
Proof. exact text_injective. Qed.
(** The number is shown in decimal, behind the name of the error. *)
Theorem C86_number : forall (e : dns_error) (n : N) (detail : bytes), carries e = Some n ->
  exists name s, error_display e detail = ascii_text "DnsError: " ++ ascii_text name ++ ascii_text "(" ++ s ++ ascii_text ")" /\ numeral n s.
Proof. exact display_number. Qed.
(** It can be shown in one line. *)
Theorem C86_printable : forall (e : dns_error) (detail : bytes), Forall printable detail -> Forall printable (error_display e detail).
Proof. exact display_printable. Qed.
(** For messages: rejected with the same text, they have the same fault. *)
Theorem C86_messages : forall (c c' : cfg) (d d' : bytes) (e e' : dns_error), byte_list d -> allocatable d -> byte_list d' -> allocatable d' ->
  packet_try_from c d = Err e -> packet_try_from c' d' = Err e' -> error_display e [] = error_display e' [] -> message_fault c' d' e.
Proof. intros c c' d d' e e' B A B' A' E E' T. apply C86_text in T. subst e'. apply C67_exact_partial; assumption. Qed.
Example C86_ex : error_display (InvalidType 65280) [] = ascii_text "DnsError: InvalidType(65280)" /\ error_display LengthViolation [] = ascii_text "DnsError: LengthViolation" /\
  error_display (InvalidNaptrFlag 0) [] = ascii_text "DnsError: InvalidNaptrFlag(0)" /\ carries (InvalidType 65280) = Some 65280.
Proof. repeat split. Qed.
Example C86_ex_messages : let d := one_answer 257 [0; 0; 1] in byte_list d /\ allocatable d /\ packet_try_from ex_build d = Err InvalidPacketData.
Proof. split; [repeat constructor|]. split; [unfold allocatable, M64; cbn; lia|vm_compute; reflexivity]. Qed.
Print Assumptions C86_text.
Print Assumptions C86_number.
Print Assumptions C86_printable.
Print Assumptions C86_messages.
