(** * Property C90: octets that are not text are repaired as Unicode recommends *)
From Coq Require Import Lia ZifyNat ZifyN.
From Verif Require Import Base Utf8 Buffer Fqdn Types RDataBasic RDataSec RData Packet BaseFacts Utf8Facts NameSpec CodeSpec WireSpec WireFacts FailSpec FieldSpec FieldFacts SvcbParse
  ReadSpec ReadFacts RepairSpec RepairFacts PropName PropRecord PropWire.

(** The strings of a TXT record: the character strings on the wire, each repaired. *)
Theorem C90_txt : forall (d : bytes) (q : nat) (l : list bytes) (b : buf), byte_list d -> (q <= length d)%nat ->
  (txt_try_from (mkbuf d q) = (Ok l, b) <->
   exists raw, consecutive (string_at d) q raw (length d) /\ Forall2 repaired raw l /\ b = mkbuf d (length d)).
Proof.
  intros d q l b B L. rewrite txt_iff by assumption. split; intros (raw & C & R & E); exists raw; (split; [exact C|]); (split; [|exact E]); apply repaired_all, R.
Qed.
(** The tag of a CAA record: the character string on the wire, repaired. *)
Theorem C90_caa : forall (d : bytes) (q : nat) (x : caa), byte_list d -> (q <= length d)%nat ->
  (fst (caa_try_from (mkbuf d q)) = Ok x <->
   exists flags raw e, nth_error d q = Some flags /\ string_at d (q + 1) raw e /\ raw <> [] /\
     caa_critical x = N.testbit flags 7 /\ repaired raw (caa_tag x) /\ caa_value x = skipn e d).
Proof.
  intros d q x B L. split.
  - intros E. destruct (caa_try_from (mkbuf d q)) as [r b] eqn:H. cbn [fst] in E. subst r.
    destruct (caa_got _ _ _ _ B L H) as (f & raw & e & H1 & H2 & H3 & H4 & H5 & H6). exists f, raw, e. rewrite H5. repeat split; try assumption; try apply H2.
    apply repaired_iff. reflexivity.
  - intros (f & raw & e & H1 & H2 & H3 & H4 & H5 & H6).
    assert (Le : (e <= length d)%nat) by apply (string_at_end _ _ _ _ H2).
    assert (E : caa_try_from (mkbuf d q) = (Ok x, mkbuf d (length d))).
    { apply (dec_caa PropRecord.ex_cfg d B q L). exists (length d). split; [|auto]. cbn [pieces laid].
      exists (q + 1)%nat. split; [exists f; split; [exact H4|]; split; [apply number1; exact H1|reflexivity]|].
      exists e. split; [exists raw; split; [exact H3|]; split; [exact H2|exact H5]|]. exists (length d). split; [|reflexivity]. split; [exact H6|reflexivity]. }
    rewrite E. reflexivity.
Qed.
(** There is exactly one repaired form of any octets; it is text, and text is its own. *)
Theorem C90_one : forall l : bytes, exists! r, repaired l r.
Proof. intros l. exists (utf8_lossy l). split; [apply repaired_iff; reflexivity|]. intros r H. apply repaired_iff, H. Qed.
Theorem C90_text : forall l r : bytes, repaired l r -> is_text r /\ (is_text l <-> r = l).
Proof.
  intros l r H. apply repaired_iff in H. subst r. destruct (lossy_spec l) as [T S]. split; [exact T|]. split; [exact S|]. intros E. rewrite <- E. exact T.
Qed.
(** "a", the first two of the three octets of U+20AC, "b", then an octet that begins nothing: two replacements. *)
Example C90_ex : repaired [97; 226; 130; 98; 255] [97; 239; 191; 189; 98; 239; 191; 189] /\ maximal_subpart [226; 130] [98; 255] /\
  fst (txt_try_from (mkbuf [5; 97; 226; 130; 98; 255] 0)) = Ok [[97; 239; 191; 189; 98; 239; 191; 189]] /\
  fst (caa_try_from (mkbuf [128; 1; 255; 7] 0)) = Ok (mkCaa true [239; 191; 189] [7]).
Proof.
  split; [apply repaired_iff; reflexivity|]. split; [|split; reflexivity]. split; [discriminate|]. split; [left; apply begins_two; split; [lia|reflexivity]|].
  intros x l E. injection E as <- <-. cbn [app]. split; [rewrite begins_three; lia|]. intros C. destruct (char_scan _ [] C) as (b & t & E & S). injection E as <- <-. discriminate S.
Qed.
Print Assumptions C90_txt.
Print Assumptions C90_caa.
Print Assumptions C90_one.
Print Assumptions C90_text.
