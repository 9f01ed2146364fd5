(** * C134: reverse names *)
From Coq Require Import Lia ZifyBool ZifyNat ZifyN.
From Verif Require Import Base Buffer Fqdn Header Types RDataBasic RDataSec Svcb Bitmap RData Packet BaseFacts FqdnFacts CodeSpec RDataSpec RDataReads CompressSpec TextFacts AddrText AddrSpec AddrFacts
  RecordSpec HeaderSpec PacketFacts ObjectSpec ObjectFacts Api PropName PropRecord PropPacket PropTrust PropAddr PropKnown.
Ltac Zify.zify_post_hook ::= Z.div_mod_to_equations.

(** ** What users write (RFC 1035, 3.5; RFC 3596, 2.5)

    Who looks for the name of an address asks for PTR records of a name that is made from the text of the address, turned round.  The server goes through the
    labels, turns them round again and has the library read the text. *)
Definition in_addr : fqdn := [[105;110;45;97;100;100;114]; [97;114;112;97]].
Definition ip6 : fqdn := [[105;112;54]; [97;114;112;97]].
Definition address4 (f : fqdn) : option N :=
  match f with
  | [d; c; b; a; x; y] => if fqdn_eqb [x; y] in_addr then a_from_text (a ++ 46 :: b ++ 46 :: c ++ 46 :: d) else None
  | _ => None
  end.
(** Four digits and a colon. *)
Fixpoint quads (l : list bytes) : bytes :=
  match l with
  | a :: b :: c :: d :: (_ :: _) as r => a ++ b ++ c ++ d ++ 58 :: quads r
  | _ => concat l
  end.
Definition address6 (f : fqdn) : option N :=
  if (length f =? 34)%nat && fqdn_eqb (skipn 32 f) ip6 then aaaa_from_text (quads (rev (firstn 32 f))) else None.

(** ** What is meant *)
(** Texts with dots in between. *)
Fixpoint joined (l : list bytes) : bytes := match l with [] => [] | [x] => x | x :: l' => x ++ 46 :: joined l' end.
Definition reverse4 (s : bytes) (octets : list N) : Prop :=
  exists p q r t a b c d, octets = [a; b; c; d] /\ octet_text p a /\ octet_text q b /\ octet_text r c /\ octet_text t d /\ s = joined ([t; r; q; p] ++ in_addr).
(** The thirty-two digits of an address, the last one first. *)
Definition reverse6 (s : bytes) (digits : list N) : Prop :=
  length digits = 32%nat /\ exists cs, Forall2 hex_digit cs digits /\ s = joined (map (fun c => [c]) (rev cs) ++ ip6).
Fixpoint in_pairs (l : list N) : list N := match l with a :: b :: l' => 16 * a + b :: in_pairs l' | _ => [] end.

Lemma joined_new f : Forall (fun l => l <> [] /\ ~ In 46 l) f -> fqdn_new (joined f) = f.
Proof.
  intros F. induction F as [|l f (N & D) F IH]; [reflexivity|]. destruct f as [|k f]; [cbn [joined]; apply fqdn_new_label; assumption|].
  change (joined (l :: k :: f)) with (l ++ 46 :: joined (k :: f)). rewrite fqdn_new_app, IH, fqdn_new_label by assumption. reflexivity.
Qed.
Lemma octet_plain s n : octet_text s n -> s <> [] /\ ~ In 46 s.
Proof. intros (N & F & _). split; [exact N|]. intros I. rewrite Forall_forall in F. specialize (F _ I). lia. Qed.
Lemma in_addr_plain : Forall (fun l => l <> [] /\ ~ In 46 l) in_addr. Proof. unfold in_addr. repeat (apply Forall_cons; [split; [discriminate|cbn; intuition discriminate]|]). apply Forall_nil. Qed.
Lemma ip6_plain : Forall (fun l => l <> [] /\ ~ In 46 l) ip6. Proof. unfold ip6. repeat (apply Forall_cons; [split; [discriminate|cbn; intuition discriminate]|]). apply Forall_nil. Qed.
Lemma reverse4_new p q r t a b c d : octet_text p a -> octet_text q b -> octet_text r c -> octet_text t d -> fqdn_new (joined ([t; r; q; p] ++ in_addr)) = [t; r; q; p] ++ in_addr.
Proof. intros P Q R T. apply joined_new. apply Forall_app. split; [|exact in_addr_plain]. repeat (apply Forall_cons; [eapply octet_plain; eassumption|]). apply Forall_nil. Qed.

(** The text determines its parts: a label with a dot in it makes five of four. *)
Definition dots (s : bytes) : nat := length (filter (fun b => b =? 46) s).
Lemma dots_app a b : dots (a ++ b) = (dots a + dots b)%nat. Proof. unfold dots. rewrite filter_app, app_length. reflexivity. Qed.
Lemma no_dots s : dots s = 0%nat <-> ~ In 46 s.
Proof.
  unfold dots. split.
  - intros E I. assert (X : In 46 (filter (fun b => b =? 46) s)) by (apply filter_In; split; [exact I|reflexivity]). destruct (filter _ s); [exact X|discriminate E].
  - intros N. induction s as [|b s IH]; [reflexivity|]. cbn [filter]. destruct (N.eqb_spec b 46) as [->|Ne]; [destruct N; left; reflexivity|]. apply IH. intros I. apply N. right. exact I.
Qed.
Lemma cut_at_dot a b x y : ~ In 46 a -> ~ In 46 x -> a ++ 46 :: b = x ++ 46 :: y -> a = x /\ b = y.
Proof.
  revert x. induction a as [|e a IH]; intros [|f x] A X E; cbn [app] in E.
  - injection E as ->. auto.
  - injection E as <- _. destruct X. left. reflexivity.
  - injection E as -> _. destruct A. left. reflexivity.
  - injection E as <- E. destruct (IH x) as (-> & ->); [cbn in A; tauto|cbn in X; tauto|exact E|auto].
Qed.

(** ** Theorems *)
(** Exactly the reverse names of IPv4 addresses are taken for such, and for the right ones. *)
Theorem C134_v4 : forall (f : fqdn) (octets : list N), option_map a_to_bytes (address4 f) = Some octets <-> exists s, reverse4 s octets /\ f = fqdn_new s.
Proof.
  intros f os. pose proof (fun s => C87_a ex_cfg s os) as T. cbn [rdata_to_bytes] in T. split.
  - unfold address4. destruct f as [|d [|c [|b [|a [|x [|y [|? ?]]]]]]]; try discriminate. destruct (fqdn_eqb [x; y] in_addr) eqn:E; [|discriminate]. apply fqdn_eqb_iff in E.
    destruct (a_from_text _) as [n|] eqn:R; [|discriminate]. cbn [option_map]. intros H. assert (D : dotted (a ++ 46 :: b ++ 46 :: c ++ 46 :: d) os) by (apply T; exists n; split; [exact R|injection H as <-; reflexivity]).
    destruct D as (p & q & r & t & o1 & o2 & o3 & o4 & Es & -> & P & Q & R1 & U).
    destruct (octet_plain _ _ P) as (_ & Np), (octet_plain _ _ Q) as (_ & Nq), (octet_plain _ _ R1) as (_ & Nr), (octet_plain _ _ U) as (_ & Nu).
    assert (K : (dots a + dots b + dots c + dots d = 0)%nat).
    { apply (f_equal dots) in Es. cbn [app] in Es. assert (X : forall z, dots (46 :: z) = S (dots z)) by reflexivity. repeat (rewrite dots_app in Es || rewrite X in Es).
      apply no_dots in Np. apply no_dots in Nq. apply no_dots in Nr. apply no_dots in Nu. lia. }
    assert (Na : ~ In 46 a) by (apply no_dots; lia). assert (Nb : ~ In 46 b) by (apply no_dots; lia). assert (Nc : ~ In 46 c) by (apply no_dots; lia).
    cbn [app] in Es. apply cut_at_dot in Es; [|assumption..]. destruct Es as (-> & Es). apply cut_at_dot in Es; [|assumption..]. destruct Es as (-> & Es). apply cut_at_dot in Es; [|assumption..]. destruct Es as (-> & ->).
    exists (joined ([t; r; q; p] ++ in_addr)). split; [exists p, q, r, t, o1, o2, o3, o4; repeat (split; [try reflexivity; assumption|]); reflexivity|].
    etransitivity; [|symmetry; exact (reverse4_new _ _ _ _ _ _ _ _ P Q R1 U)]. cbn [app]. rewrite <- E. reflexivity.
  - intros (s & (p & q & r & t & a & b & c & d & -> & P & Q & R & U & ->) & ->). rewrite (reverse4_new _ _ _ _ _ _ _ _ P Q R U). cbn [app in_addr address4].
    assert (X : dotted (p ++ 46 :: q ++ 46 :: r ++ 46 :: t) [a; b; c; d]) by (exists p, q, r, t, a, b, c, d; repeat (split; [try reflexivity; assumption|]); assumption).
    apply T in X. destruct X as (n & E & W). change (fqdn_eqb in_addr in_addr) with true. cbn iota. unfold in_addr at 1. 
    match goal with |- option_map _ (if ?e then _ else _) = _ => replace e with true by reflexivity end. rewrite E. cbn [option_map]. f_equal. congruence.
Qed.
Lemma digit_small b d : hex_digit b d -> d < 16 /\ b <> 46. Proof. unfold hex_digit. lia. Qed.
Lemma quads_text k : forall cs ns, Forall2 hex_digit cs ns -> length ns = (4 * S k)%nat ->
  exists gs, end_text (quads (map (fun c => [c]) cs)) gs /\ length gs = S k /\ flat_map pair_of gs = in_pairs ns.
Proof.
  induction k as [|k IH]; intros cs ns F L.
  all: destruct F as [|c1 n1 cs ns H1 F]; [cbn in L; lia|]; destruct F as [|c2 n2 cs ns H2 F]; [cbn in L; lia|]; destruct F as [|c3 n3 cs ns H3 F]; [cbn in L; lia|]; destruct F as [|c4 n4 cs ns H4 F]; [cbn in L; lia|].
  all: assert (G : group_text [c1; c2; c3; c4] (16 * (16 * (16 * n1 + n2) + n3) + n4)) by
    (split; [cbn; lia|]; exists [n1; n2; n3; n4]; split; [repeat (apply Forall2_cons; [assumption|]); apply Forall2_nil|]; cbn [fold_left]; lia).
  all: assert (P : pair_of (16 * (16 * (16 * n1 + n2) + n3) + n4) = [16 * n1 + n2; 16 * n3 + n4]) by
    (destruct (digit_small _ _ H1), (digit_small _ _ H2), (digit_small _ _ H3), (digit_small _ _ H4); unfold pair_of; f_equal; [lia|f_equal; lia]).
  - destruct F; [|cbn in L; lia]. exists [16 * (16 * (16 * n1 + n2) + n3) + n4]. split; [apply et_one; exact G|]. split; [reflexivity|]. cbn [flat_map in_pairs app]. rewrite P. reflexivity.
  - destruct (IH cs ns F) as (gs & E & Lg & D); [cbn in L |- *; lia|]. exists (16 * (16 * (16 * n1 + n2) + n3) + n4 :: gs). split; [|split; [cbn; lia|]].
    + destruct F as [|c n cs ns H F]; [cbn in L; lia|]. apply (et_more [c1; c2; c3; c4] _ _ _ G E).
    + cbn [flat_map in_pairs]. rewrite P, D. reflexivity.
Qed.
(** The reverse name of every IPv6 address, its digits in whatever case, is taken for this address. *)
Theorem C134_v6 : forall (s : bytes) (digits : list N), reverse6 s digits -> option_map aaaa_to_bytes (address6 (fqdn_new s)) = Some (in_pairs digits).
Proof.
  intros s ns (L & cs & F & ->). assert (Lc : length cs = length ns) by (clear L; induction F; cbn; congruence). rewrite joined_new.
  - assert (Lm : length (map (fun c : N => [c]) (rev cs)) = 32%nat) by (rewrite map_length, rev_length; lia). unfold address6. rewrite app_length, Lm. cbn [length ip6 Nat.add Nat.eqb].
    rewrite skipn_app, skipn_all2, Lm by lia. cbn [app Nat.sub skipn]. change (fqdn_eqb ip6 ip6) with true. cbn [andb]. rewrite firstn_app, Lm, firstn_all2 by lia. cbn [Nat.sub firstn]. rewrite app_nil_r, map_rev, rev_involutive.
    destruct (quads_text 7 cs ns F L) as (gs & E & Lg & D).
    assert (X : exists a, aaaa_from_text (quads (map (fun c => [c]) cs)) = Some a /\ rdata_to_bytes ex_cfg (DAAAA a) = Ok (flat_map pair_of gs)) by (apply C87_aaaa; exists gs; split; [left; split; assumption|reflexivity]).
    destruct X as (a & Ea & W). cbn [rdata_to_bytes] in W. apply Ok_inj in W. rewrite Ea. cbn [option_map]. rewrite W, D. reflexivity.
  - apply Forall_app. split; [|exact ip6_plain]. apply Forall_map, Forall_rev. clear L Lc. induction F as [|c n cs ns H F IH]; constructor; [|exact IH].
    split; [discriminate|]. intros [E|[]]. destruct (digit_small _ _ H) as (_ & Z). congruence.
Qed.
(** No other name is: seven colons and at most thirty-nine characters leave one for each label. *)
Definition cols (s : bytes) : nat := length (filter (fun b => b =? 58) s).
Lemma cols_app a b : cols (a ++ b) = (cols a + cols b)%nat. Proof. unfold cols. rewrite filter_app, app_length. reflexivity. Qed.
Lemma cols_none s : Forall (fun b => b <> 58) s -> cols s = 0%nat.
Proof. intros F. induction F as [|b s N F IH]; [reflexivity|]. unfold cols in *. cbn [filter]. destruct (N.eqb_spec b 58); [congruence|exact IH]. Qed.
Lemma cols_some s : In 58 s -> (1 <= cols s)%nat.
Proof. intros I. apply in_split in I. destruct I as (a & b & ->). rewrite cols_app. unfold cols at 2. cbn. lia. Qed.
Definition is_hex (b : N) : Prop := exists d, hex_digit b d.
Lemma group_shape s n : group_text s n -> (1 <= length s <= 4)%nat /\ cols s = 0%nat /\ Forall (fun b => is_hex b \/ b = 58) s.
Proof.
  intros (L & ds & F & _). split; [exact L|]. clear L. split.
  - apply cols_none. induction F as [|b d s ds H F IH]; constructor; [|exact IH]. unfold hex_digit in H. lia.
  - induction F as [|b d s ds H F IH]; constructor; [|exact IH]. left. exists d. exact H.
Qed.
Lemma octet_cols s n : octet_text s n -> cols s = 0%nat.
Proof. intros (_ & F & _). apply cols_none. eapply Forall_impl; [|exact F]. cbn. lia. Qed.
Lemma dotted_cols s os : dotted s os -> cols s = 0%nat.
Proof.
  intros (p & q & r & t & a & b & c & d & -> & _ & P & Q & R & T). rewrite !cols_app, (octet_cols _ _ P), (octet_cols _ _ Q), (octet_cols _ _ R), (octet_cols _ _ T). reflexivity.
Qed.
Lemma groups_shape s l : groups_text s l -> (length s + 1 <= 5 * length l)%nat /\ (cols s + 1 = length l)%nat.
Proof.
  intros G. induction G as [s n G|s n t l G T (I1 & I2)]; destruct (group_shape _ _ G) as (A & B & _); [cbn [length]; lia|].
  rewrite !app_length, !cols_app. change (cols [58]) with 1%nat. cbn [length]. lia.
Qed.
Lemma end_shape s l : end_text s l -> ((length s + 1 <= 5 * length l)%nat /\ (cols s + 1 = length l)%nat /\ Forall (fun b => is_hex b \/ b = 58) s) \/ (cols s + 2 = length l)%nat.
Proof.
  intros G. induction G as [s n G|s a b c d D|s n t l G T I].
  - left. destruct (group_shape _ _ G) as (A & B & F). cbn [length]. repeat split; [lia|lia|exact F].
  - right. rewrite (dotted_cols _ _ D). reflexivity.
  - destruct (group_shape _ _ G) as (A & B & F). destruct I as [(I1 & I2 & I3)|I]; [left|right]; rewrite !cols_app; change (cols [58]) with 1%nat; cbn [length]; [|lia].
    rewrite !app_length. cbn [length]. repeat split; [lia|lia|]. apply Forall_app. split; [exact F|]. apply Forall_app. split; [constructor; [right; reflexivity|constructor]|exact I3].
Qed.
Lemma quads_shape k : forall ls, length ls = (4 * S k)%nat -> cols (quads ls) = (k + cols (concat ls))%nat /\ length (quads ls) = (k + length (concat ls))%nat /\ incl (concat ls) (quads ls).
Proof.
  induction k as [|k IH]; intros ls L.
  - destruct ls as [|a [|b [|c [|d [|e ls]]]]]; cbn in L; try lia. cbn [quads]. repeat split. intros x I. exact I.
  - destruct ls as [|a [|b [|c [|d [|e ls]]]]]; try (cbn in L; lia). destruct (IH (e :: ls)) as (A & B & C); [cbn in L |- *; lia|].
    change (quads (a :: b :: c :: d :: e :: ls)) with (a ++ b ++ c ++ d ++ 58 :: quads (e :: ls)). change (concat (a :: b :: c :: d :: e :: ls)) with (a ++ b ++ c ++ d ++ concat (e :: ls)).
    set (Q := quads (e :: ls)) in *. set (K := concat (e :: ls)) in *. change (58 :: Q) with ([58] ++ Q). rewrite !cols_app, !app_length. change (cols [58]) with 1%nat. cbn [length]. repeat split; [lia|lia|].
    intros x I. rewrite !in_app_iff in *. specialize (C x). tauto.
Qed.
Lemma singles ls : Forall (fun l : bytes => l <> []) ls -> (length (concat ls) <= length ls)%nat -> exists cs, ls = map (fun c => [c]) cs.
Proof.
  intros F. assert (G : forall ls : list bytes, Forall (fun l => l <> []) ls -> (length ls <= length (concat ls))%nat).
  { intros l H. induction H as [|x l N H IH]; [cbn; lia|]. cbn [concat length]. rewrite app_length. destruct x; [congruence|]. cbn [length]. lia. }
  induction F as [|l ls N F IH]; intros L; [exists []; reflexivity|]. cbn [concat length] in L. rewrite app_length in L. pose proof (G ls F) as Gl.
  destruct l as [|c [|? ?]]; [congruence| |cbn [length] in L; lia]. destruct IH as (cs & E); [cbn [length] in L; lia|]. exists (c :: cs). cbn [map]. f_equal. exact E.
Qed.
Lemma quads_only ls gs : length ls = 32%nat -> Forall (fun l : bytes => l <> []) ls -> rfc4291_text (quads ls) gs -> exists cs ds, ls = map (fun c => [c]) cs /\ Forall2 hex_digit cs ds.
Proof.
  intros L F T. destruct (quads_shape 7 ls L) as (C & Lq & Inc).
  assert (Lc : (32 <= length (concat ls))%nat).
  { rewrite <- L. clear - F. induction F as [|x l N H IH]; [cbn; lia|]. cbn [concat length]. rewrite app_length. destruct x; [congruence|]. cbn [length]. lia. }
  destruct T as [(E & Lg)|(h & t & hs & ts & Es & H & U & Lg & _)].
  - destruct (end_shape _ _ E) as [(E1 & E2 & E3)|E2]; [|lia]. destruct (singles ls F ltac:(lia)) as (cs & ->). exists cs.
    assert (X : Forall is_hex cs).
    { rewrite Forall_forall in E3 |- *. intros x I. assert (Ic : In x (concat (map (fun c => [c]) cs))) by (apply in_concat; exists [x]; split; [apply in_map_iff; exists x; auto|left; reflexivity]).
      destruct (E3 x (Inc x Ic)) as [K| ->]; [exact K|]. apply cols_some in Ic. lia. }
    clear - X. induction X as [|c cs (d & D) X (ds & IH)]; [exists []; split; [reflexivity|constructor]|]. exists (d :: ds). split; [reflexivity|]. constructor; [exact D|apply IH].
  - exfalso. rewrite Es in C, Lq. rewrite !cols_app in C. rewrite !app_length in Lq. change (cols [58; 58]) with 2%nat in C. cbn [length] in Lq.
    destruct H as [(-> & ->)|H]; [|apply groups_shape in H]; (destruct U as [(-> & ->)|U]; [|apply end_shape in U]); cbn [length] in *; change (cols []) with 0%nat in *; try lia.
    destruct U as [U|U]; [lia|]. assert (I : In 58 (concat ls)).
    { destruct ls as [|[|x l] ls]; [discriminate L|apply Forall_inv in F; congruence|]. destruct ls as [|b [|c [|d [|e ls]]]]; try (cbn in L; lia). cbn in Es. injection Es as -> _. left. reflexivity. }
    apply cols_some in I. lia.
Qed.
Theorem C134_v6_only : forall (f : fqdn) (octets : list N), Forall (fun l => l <> []) f ->
  (option_map aaaa_to_bytes (address6 f) = Some octets <-> exists s digits, reverse6 s digits /\ octets = in_pairs digits /\ f = fqdn_new s).
Proof.
  intros f os F. split; [|intros (s & ds & R & -> & ->); apply C134_v6, R]. intros E. assert (E0 := E). unfold address6 in E.
  destruct ((length f =? 34)%nat && fqdn_eqb (skipn 32 f) ip6) eqn:B; [|discriminate E]. apply andb_true_iff in B. destruct B as (B1 & B2). apply Nat.eqb_eq in B1. apply fqdn_eqb_iff in B2.
  destruct (aaaa_from_text _) as [a|] eqn:A; [|discriminate E].
  assert (X : exists groups, rfc4291_text (quads (rev (firstn 32 f))) groups /\ aaaa_to_bytes a = flat_map pair_of groups) by (apply (C87_aaaa ex_cfg); exists a; split; [exact A|reflexivity]).
  destruct X as (gs & T & _). destruct (quads_only (rev (firstn 32 f)) gs) as (cs & ds & Ec & Fd).
  { rewrite rev_length, firstn_length. lia. }
  { apply Forall_rev. rewrite <- (firstn_skipn 32 f) in F. apply Forall_app in F. apply F. }
  { exact T. }
  assert (Ls : length cs = 32%nat) by (apply (f_equal (@length bytes)) in Ec; rewrite map_length, rev_length, firstn_length in Ec; lia).
  assert (Ld : length ds = length cs) by (clear - Fd; induction Fd; cbn; congruence).
  assert (Ef : f = map (fun c => [c]) (rev cs) ++ ip6) by (rewrite map_rev, <- Ec, rev_involutive, <- B2; symmetry; apply firstn_skipn).
  assert (R : reverse6 (joined (map (fun c => [c]) (rev cs) ++ ip6)) ds) by (split; [lia|]; exists cs; split; [exact Fd|reflexivity]).
  assert (N : f = fqdn_new (joined (map (fun c => [c]) (rev cs) ++ ip6))).
  { rewrite joined_new; [exact Ef|]. apply Forall_app. split; [|exact ip6_plain]. apply Forall_map, Forall_rev. clear - Fd. induction Fd as [|c d cs ds H Fd IH]; constructor; [|exact IH].
    split; [discriminate|]. intros [E|[]]. destruct (digit_small _ _ H) as (_ & Z). congruence. }
  eexists. exists ds. split; [exact R|]. split; [|exact N]. pose proof (C134_v6 _ _ R) as V. rewrite <- N, E0 in V. injection V as V. exact V.
Qed.
(** The question for it arrives. *)
Theorem C134_asked_partial : forall (c : cfg) (h : hasher) (p : packet) (out : bytes) (q : question) (s : bytes) (octets : list N), sent c h p out -> In q (p_questions p) ->
  q_name q = fqdn_new s -> (reverse4 s octets \/ exists digits, reverse6 s digits /\ octets = in_pairs digits) ->
  exists p', packet_try_from c out = Ok p' /\ In q (p_questions p') /\
    (option_map a_to_bytes (address4 (q_name q)) = Some octets \/ option_map aaaa_to_bytes (address6 (q_name q)) = Some octets).
Proof.
  intros c h p out q s os S I E R.
  assert (A : exists p', packet_try_from c out = Ok p' /\ p_questions p' = p_questions p).
  { destruct S as [O Sm W|O C H W L].
    - destruct (C28_plain_roundtrip_partial c p O Sm) as (bs & Eb & Rd). rewrite Eb in W. apply Ok_inj in W. subst bs. specialize (Rd []). rewrite app_nil_r in Rd. eexists. split; [exact Rd|reflexivity].
    - exists p. split; [|reflexivity]. pose proof (C29_compressed_roundtrip_partial c h p out O C H W L []) as Rd. rewrite app_nil_r in Rd. exact Rd. }
  destruct A as (p' & Rd & Q). exists p'. split; [exact Rd|]. rewrite Q. split; [exact I|]. rewrite E. destruct R as [R|(ds & R & ->)]; [left; apply C134_v4; exists s; auto|right; apply C134_v6, R].
Qed.
(** In capitals it is not recognised, although the names are the same. *)
Theorem C134_case_refuted : exists f g : fqdn, same_name f g /\ address4 f = Some 16909060 /\ address4 g = None.
Proof. exists ([[52]; [51]; [50]; [49]] ++ in_addr), ([[52]; [51]; [50]; [49]] ++ [[73;78;45;65;68;68;82]; [65;82;80;65]]). repeat split; reflexivity. Qed.

Example C134_ex : reverse4 (joined ([[52]; [51]; [50;48]; [49;57;50]] ++ in_addr)) [192; 20; 3; 4] /\ address4 (fqdn_new (joined ([[52]; [51]; [50;48]; [49;57;50]] ++ in_addr))) = Some 3222536964 /\
  reverse6 (joined (map (fun c => [c]) (rev (50 :: repeat 48 30 ++ [102])) ++ ip6)) (2 :: repeat 0 30 ++ [15]) /\
  option_map aaaa_to_bytes (address6 (fqdn_new (joined (map (fun c => [c]) (rev (50 :: repeat 48 30 ++ [102])) ++ ip6)))) = Some (32 :: repeat 0 14 ++ [15]).
Proof.
  split; [|split; [vm_compute; reflexivity|split; [|vm_compute; reflexivity]]].
  - exists [49;57;50], [50;48], [51], [52], 192, 20, 3, 4. split; [reflexivity|]. repeat (split; [unfold octet_text; repeat split; try discriminate; try (cbn; lia); repeat constructor; lia|]). reflexivity.
  - split; [reflexivity|]. eexists. split; [|reflexivity]. cbn [repeat app]. repeat (apply Forall2_cons; [unfold hex_digit; lia|]). apply Forall2_nil.
Qed.
Print Assumptions C134_v4.
Print Assumptions C134_v6.
Print Assumptions C134_v6_only.
Print Assumptions C134_asked_partial.
Print Assumptions C134_case_refuted.
