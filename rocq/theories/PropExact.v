(** * The round trips are exact: the conditions of C05, C22, C23 and C26 are necessary as well as sufficient *)
From Coq Require Import Lia.
From Verif Require Import Base Utf8 Buffer Fqdn Types RDataBasic RDataSec RData Packet BaseFacts NameSpec RDataSpec RecordSpec SvcbParse ExactFacts PropName PropRecord.

(** ** C05: a name reads back from what was written for it exactly when every label has 1 to 191 octets *)
Theorem C05_name_exact : forall (f : fqdn) (pre suf : bytes), byte_list (pre ++ fqdn_to_bytes f ++ suf) ->
  (fst (extract_fqdn (mkbuf (pre ++ fqdn_to_bytes f ++ suf) (length pre))) = Ok f <->
   Forall (fun l : bytes => 1 <= length l <= 191)%nat f).
Proof. exact name_exact. Qed.
Example C05_ex_exact : byte_list ([7] ++ fqdn_to_bytes ex_www ++ [192]) /\ byte_list ([7] ++ fqdn_to_bytes [[]] ++ [192]) /\
  fst (extract_fqdn (mkbuf ([7] ++ fqdn_to_bytes ex_www ++ [192]) 1)) = Ok ex_www /\
  fst (extract_fqdn (mkbuf ([7] ++ fqdn_to_bytes [[]] ++ [192]) 1)) = Ok [].
Proof. repeat split; repeat constructor. Qed.

(** ** C22: a question reads back exactly when its name, type and class satisfy [question_ok] *)
Theorem C22_question_exact : forall (c : cfg) (q : question) (pre suf : bytes), byte_list (pre ++ question_to_bytes c q ++ suf) ->
  (fst (question_try_from c (mkbuf (pre ++ question_to_bytes c q ++ suf) (length pre))) = Ok q <-> question_ok c q).
Proof. exact question_exact. Qed.
Example C22_ex_exact : byte_list (question_to_bytes ex_cfg ex_question) /\
  fst (question_try_from ex_cfg (mkbuf ([] ++ question_to_bytes ex_cfg ex_question ++ []) 0)) = Ok ex_question.
Proof. split; [repeat constructor|reflexivity]. Qed.

(** ** C23: record data read back exactly when they satisfy [rdata_fits].  Data of more than 65535 octets fit in
    no record; [allocatable] says that the buffer has at most 2^63-1 octets, as any Rust slice has. *)
Theorem C23_rdata_exact_partial : forall (c : cfg) (d : rdata) (bs pre : bytes), rdata_typed c d ->
  rdata_to_bytes c d = Ok bs -> byte_list (pre ++ bs) -> allocatable (pre ++ bs) -> N.of_nat (length bs) <= 65535 ->
  (fst (rdata_from c (rdata_type d) (mkbuf (pre ++ bs) (length pre))) = Ok d <-> rdata_fits c d).
Proof. exact rdata_exact. Qed.
Example C23_ex_exact : exists bs, rdata_typed ex_cfg ex_caa /\ rdata_to_bytes ex_cfg ex_caa = Ok bs /\ byte_list ([1; 2] ++ bs) /\
  allocatable ([1; 2] ++ bs) /\ N.of_nat (length bs) <= 65535 /\
  fst (rdata_from ex_cfg CAA (mkbuf ([1; 2] ++ bs) 2)) = Ok ex_caa.
Proof.
  eexists. split; [apply (proj1 (Forall_forall _ _) C23_ex); cbn; tauto|]. split; [reflexivity|]. split; [repeat constructor|].
  split; [unfold allocatable; cbn; lia|]. split; [cbn; lia|reflexivity].
Qed.

(** ** C26: a record in its plain form reads back, wherever it stands, exactly when it satisfies [rr_plain_ok] *)
Theorem C26_plain_exact_partial : forall (c : cfg) (r : rr) (bs : bytes), rdata_typed c (rr_data r) ->
  rr_to_bytes c r = Ok bs -> byte_list bs -> allocatable bs ->
  ((forall pre suf, rr_try_from c (mkbuf (pre ++ bs ++ suf) (length pre)) =
                    (Ok r, mkbuf (pre ++ bs ++ suf) (length pre + length bs))) <->
   rr_plain_ok c r).
Proof. exact record_exact. Qed.
Example C26_ex_exact : exists bs, rdata_typed ex_cfg (rr_data ex_rr) /\ rr_to_bytes ex_cfg ex_rr = Ok bs /\ byte_list bs /\ allocatable bs /\
  rr_try_from ex_cfg (mkbuf bs 0) = (Ok ex_rr, mkbuf bs (length bs)).
Proof.
  eexists. split; [apply C26_ex|]. split; [reflexivity|]. split; [repeat constructor|].
  split; [unfold allocatable; cbn; lia|reflexivity].
Qed.
Print Assumptions C05_name_exact.
Print Assumptions C22_question_exact.
Print Assumptions C23_rdata_exact_partial.
Print Assumptions C26_plain_exact_partial.
