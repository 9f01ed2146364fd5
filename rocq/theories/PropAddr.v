(** * C87: addresses from texts *)
From Coq Require Import Lia ZifyBool ZifyNat ZifyN String.
From Verif Require Import Base BaseFacts Buffer Fqdn Types RDataBasic Svcb RDataSec RData RDataReads ErrorText AddrText AddrSpec AddrFacts.
Open Scope list_scope.
Open Scope N_scope.
Ltac Zify.zify_post_hook ::= Z.div_mod_to_equations.

(** A group as two octets. *)
Definition pair_of (g : N) : bytes := [g / 256; g mod 256].
Lemma pair_be g : g < 65536 -> be 2 g = pair_of g.
Proof. intros L. cbn [be app]. unfold pair_of. f_equal. lia. Qed.
Lemma a_iff c s os : (exists n, a_from_text s = Some n /\ rdata_to_bytes c (DA n) = Ok os) <-> dotted s os.
Proof.
  unfold a_from_text. cbn [rdata_to_bytes]. unfold a_to_bytes. split.
  - intros (n & E & W). apply Ok_inj in W. subst os. destruct (15 <? List.length s)%nat; [discriminate|]. unfold all_read in E.
    destruct (read_ipv4 s) as [[l r]|] eqn:R; [|discriminate]. destruct r; [|discriminate]. injection E as <-.
    apply ipv4_sound in R. destruct R as (u & -> & U & _). rewrite app_nil_r. destruct (dotted_facts _ _ U) as (_ & L & F).
    rewrite <- L, be_unbe by exact F. assumption.
  - intros D. destruct (dotted_facts _ _ D) as (L15 & L & F). exists (unbe os). split.
    + destruct (15 <? List.length s)%nat eqn:E; [lia|]. pose proof (ipv4_read s os [] I D) as R. rewrite app_nil_r in R. now rewrite R.
    + f_equal. rewrite <- L. now apply be_unbe.
Qed.
Lemma pairs_bytes gs : Forall (fun g => g < 65536) gs -> flat_map (be 2) gs = flat_map pair_of gs /\ byte_list (flat_map pair_of gs).
Proof.
  induction 1 as [|g gs L _ (IH & B)]; [split; [reflexivity|constructor]|]. cbn [flat_map]. rewrite IH, pair_be by assumption. split; [reflexivity|].
  unfold pair_of in *. cbn [app]. constructor; [|constructor]; [lia|lia|exact B].
Qed.
Lemma pairs_length gs : List.length (flat_map pair_of gs) = (2 * List.length gs)%nat.
Proof. induction gs as [|g gs IH]; cbn [flat_map List.length app pair_of] in *; lia. Qed.
Lemma aaaa_iff c s os : (exists n, aaaa_from_text s = Some n /\ rdata_to_bytes c (DAAAA n) = Ok os) <-> exists gs, rfc4291_text s gs /\ os = flat_map pair_of gs.
Proof.
  unfold aaaa_from_text. cbn [rdata_to_bytes]. unfold aaaa_to_bytes.
  assert (K : forall gs, rfc4291_text s gs -> be 16 (unbe (flat_map (be 2) gs)) = flat_map pair_of gs).
  { intros gs H. destruct (rfc4291_facts _ _ H) as (L & F). destruct (pairs_bytes gs F) as (-> & B).
    replace 16%nat with (List.length (flat_map pair_of gs)) by (rewrite pairs_length; lia). now apply be_unbe. }
  split.
  - intros (n & E & W). apply Ok_inj in W. subst os. unfold all_read in E. destruct (read_ipv6 s) as [[gs r]|] eqn:R; [|discriminate]. destruct r; [|discriminate].
    apply ipv6_iff in R. cbn [option_map] in E. assert (E' : unbe (flat_map (be 2) gs) = n) by congruence. subst n. exists gs. auto.
  - intros (gs & H & ->). eexists. split; [|f_equal; apply (K gs H)]. apply ipv6_iff in H. now rewrite H.
Qed.

(** ** One text for each IPv4 address *)
Lemma octet_has n : n <= 255 -> exists s, octet_text s n.
Proof.
  intros L. unfold octet_text. destruct (n <? 10) eqn:E1; [|destruct (n <? 100) eqn:E2].
  - exists [48 + n]. cbn [hd fold_left]. repeat split; try lia; [discriminate|repeat constructor; lia|].
    intros H. f_equal. lia.
  - exists [48 + n / 10; 48 + n mod 10]. cbn [hd fold_left]. repeat split; try lia; [discriminate|repeat constructor; lia].
  - exists [48 + n / 100; 48 + n / 10 mod 10; 48 + n mod 10]. cbn [hd fold_left]. repeat split; try lia; [discriminate|repeat constructor; lia].
Qed.
Lemma octet_one s t n : octet_text s n -> octet_text t n -> s = t.
Proof.
  intros H K. pose proof (octet_short _ _ H) as LH. pose proof (octet_short _ _ K) as LK.
  destruct H as (_ & F & Z & E & _), K as (_ & G & Y & E' & _). rewrite E in E'. clear E.
  rewrite Forall_forall in F, G.
  destruct s as [|a [|b [|c [|? ?]]]]; cbn [List.length] in LH; try lia; (destruct t as [|x [|y [|z [|? ?]]]]; cbn [List.length] in LK; try lia);
    cbn [hd fold_left] in *;
    (try (pose proof (F a ltac:(cbn; auto)); pose proof (G x ltac:(cbn; auto))));
    (try pose proof (F b ltac:(cbn; auto))); (try pose proof (G y ltac:(cbn; auto)));
    (try pose proof (F c ltac:(cbn; auto))); (try pose proof (G z ltac:(cbn; auto)));
    (try (assert (a <> 48) by (intros ->; now specialize (Z eq_refl))));
    (try (assert (x <> 48) by (intros ->; now specialize (Y eq_refl))));
    try (exfalso; lia); repeat f_equal; lia.
Qed.
Lemma dotted_one s t os : dotted s os -> dotted t os -> s = t.
Proof.
  intros (p & q & r & u & a & b & c & d & -> & -> & P & Q & R & U) (p' & q' & r' & u' & a' & b' & c' & d' & -> & E & P' & Q' & R' & U').
  injection E as <- <- <- <-. rewrite (octet_one _ _ _ P P'), (octet_one _ _ _ Q Q'), (octet_one _ _ _ R R'), (octet_one _ _ _ U U'). reflexivity.
Qed.
Lemma dotted_has os : List.length os = 4%nat -> Forall (fun o => o <= 255) os -> exists s, dotted s os.
Proof.
  destruct os as [|a [|b [|c [|d [|? ?]]]]]; try discriminate. intros _ F. rewrite Forall_forall in F.
  destruct (octet_has a) as (p & P); [apply F; cbn; auto|]. destruct (octet_has b) as (q & Q); [apply F; cbn; auto|].
  destruct (octet_has c) as (r & R); [apply F; cbn; auto|]. destruct (octet_has d) as (t & T); [apply F; cbn; auto 6|].
  eexists. exists p, q, r, t, a, b, c, d. split; [reflexivity|]. auto 8.
Qed.
Definition hex_char (d : N) : N := if d <? 10 then 48 + d else 87 + d.
Lemma hex_char_ok d : d < 16 -> hex_digit (hex_char d) d.
Proof. intros L. unfold hex_char, hex_digit. destruct (d <? 10) eqn:E; lia. Qed.
Lemma group_has g : g < 65536 -> exists s, group_text s g.
Proof.
  intros L. exists [hex_char (g / 4096); hex_char (g / 256 mod 16); hex_char (g / 16 mod 16); hex_char (g mod 16)]. split; [cbn; lia|].
  exists [g / 4096; g / 256 mod 16; g / 16 mod 16; g mod 16]. split; [repeat (apply Forall2_cons; [apply hex_char_ok; lia|]); apply Forall2_nil|]. cbn [fold_left]. lia.
Qed.
Lemma end_has gs : gs <> [] -> Forall (fun g => g < 65536) gs -> exists s, end_text s gs.
Proof.
  intros N F. induction F as [|g gs L F IH]; [congruence|]. destruct (group_has g L) as (s & G). destruct gs as [|g' gs].
  - exists s. now constructor.
  - destruct IH as (t & T); [discriminate|]. exists (s ++ [58] ++ t). now constructor.
Qed.

(** ** The property *)

(** An [A] is made exactly from four decimal numbers up to 255, without leading zeros and with dots between them, and those four numbers are
    the octets it puts on the wire. *)
Theorem C87_a : forall (c : cfg) (s : bytes) (octets : list N),
  (exists a, a_from_text s = Some a /\ rdata_to_bytes c (DA a) = Ok octets) <-> dotted s octets.
Proof. exact a_iff. Qed.
(** Every IPv4 address has exactly one text. *)
Theorem C87_a_text : forall (octets : list N), List.length octets = 4%nat -> Forall (fun o => o <= 255) octets ->
  exists s, dotted s octets /\ forall s', dotted s' octets -> s' = s.
Proof. intros os L F. destruct (dotted_has os L F) as (s & D). exists s. split; [assumption|]. intros s' D'. eauto using dotted_one. Qed.
(** An [Aaaa] is made exactly from the texts of RFC 4291, and the eight numbers are the octets it puts on the wire. *)
Theorem C87_aaaa : forall (c : cfg) (s : bytes) (octets : list N),
  (exists a, aaaa_from_text s = Some a /\ rdata_to_bytes c (DAAAA a) = Ok octets)
  <-> exists groups, rfc4291_text s groups /\ octets = flat_map pair_of groups.
Proof. exact aaaa_iff. Qed.
(** Every IPv6 address has a text. *)
Theorem C87_aaaa_text : forall (groups : list N), List.length groups = 8%nat -> Forall (fun g => g < 65536) groups -> exists s, rfc4291_text s groups.
Proof. intros gs L F. destruct (end_has gs) as (s & E); [intros ->; discriminate|assumption|]. exists s. left. auto. Qed.
Print Assumptions C87_a.
Print Assumptions C87_a_text.
Print Assumptions C87_aaaa.
Print Assumptions C87_aaaa_text.

Definition texts (l : list string) : list bytes := map ascii_text l.
Example C87_a_ex : a_from_text (ascii_text "66.249.91.103") = Some 1123638119 /\ a_to_bytes 1123638119 = [66; 249; 91; 103].
Proof. now vm_compute. Qed.
Example C87_a_not : map a_from_text (texts ["1.2.3"; "1.2.3.4.5"; "1.2.3.256"; "01.2.3.4"; "1.2.3.4 "; ""; "1..2.3"; "0x1.2.3.4"]%string) = repeat None 8.
Proof. reflexivity. Qed.
Example C87_aaaa_ex : map (fun s => option_map aaaa_to_bytes (aaaa_from_text s)) (texts ["::"; "2001:DB8::a"; "::ffff:10.0.0.1"; "1:2:3:4:5:6:7::"; "0001:2:3:4:5:6:7:8"]%string)
  = [Some (repeat 0 16); Some ([32; 1; 13; 184] ++ repeat 0 11 ++ [10]); Some (repeat 0 10 ++ [255; 255; 10; 0; 0; 1]);
     Some [0; 1; 0; 2; 0; 3; 0; 4; 0; 5; 0; 6; 0; 7; 0; 0]; Some [0; 1; 0; 2; 0; 3; 0; 4; 0; 5; 0; 6; 0; 7; 0; 8]].
Proof. now vm_compute. Qed.
Example C87_aaaa_not : map aaaa_from_text (texts [""; ":"; ":::"; "1:2:3:4:5:6:7"; "1::2::3"; "1:2:3:4:5:6:7:8::"; "::1.2.3.4:5"; "12345::"; "::g"; "1.2.3.4::"; "::%1"]%string) = repeat None 11.
Proof. reflexivity. Qed.
