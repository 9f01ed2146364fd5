(** * Facts about the pointers of written messages. *)
From Coq Require Import Lia ZifyBool ZifyNat ZifyN.
From Verif Require Import Base Buffer Fqdn Header Types RDataBasic Bitmap Svcb RDataSec RData Packet BaseFacts NameSpec FqdnFacts CompressSpec ChunkFacts RecordSpec JumpSpec.

Lemma jumps_ext d x p f n : jumps d p f n -> jumps (d ++ x) p f n.
Proof.
  induction 1 as [p E|p l f n Hl _ IH|p t f n Hp _ IH].
  - constructor. rewrite nth_error_app1; [exact E|]. apply nth_error_Some. congruence.
  - apply past_label; [apply label_at_ext, Hl|exact IH].
  - apply (one_jump _ p t); [apply pointer_at_ext, Hp|exact IH].
Qed.
Lemma jumps_inv d p f n : jumps d p f n ->
  (nth_error d p = Some 0 /\ f = [] /\ n = 0%nat) \/ (exists l g, label_at d 191 p l /\ f = l :: g /\ jumps d (p + 1 + length l) g n) \/
  exists t k, pointer_at d p t /\ n = S k /\ jumps d t f k.
Proof. destruct 1; [left|right; left|right; right]; eauto. Qed.
Lemma jumps_once d p f n : jumps d p f n -> forall f' n', jumps d p f' n' -> f' = f /\ n' = n.
Proof.
  induction 1 as [p E|p l f n Hl _ IH|p t f n Hp _ IH]; intros f' n' J; destruct (jumps_inv _ _ _ _ J) as [(E' & -> & ->)|[(l' & g & (m' & E' & R' & L' & El') & -> & J')|(t' & k & (a' & b' & E' & R' & E2' & B' & Et') & -> & J')]].
  - split; reflexivity.
  - assert (m' = 0) by congruence. lia.
  - assert (a' = 0) by congruence. lia.
  - destruct Hl as (m & E & R & _). assert (m = 0) by congruence. lia.
  - destruct Hl as (m & E & R & L & El). assert (m' = m) by congruence. subst m'. assert (X : l' = l) by congruence. rewrite X in *. destruct (IH _ _ J') as [-> ->]. split; reflexivity.
  - destruct Hl as (m & E & R & _). assert (a' = m) by congruence. lia.
  - destruct Hp as (a & b & E & R & _). assert (a = 0) by congruence. lia.
  - destruct Hp as (a & b & E & R & _). assert (a = m') by congruence. lia.
  - destruct Hp as (a & b & E & R & E2 & B & Et). assert (a' = a) by congruence. assert (b' = b) by congruence. assert (t' = t) by congruence. subst. destruct (IH _ _ J') as [-> ->]. split; reflexivity.
Qed.

(** Where a tail has been written: with fewer pointers than labels. *)
Definition near (w : bytes) (off : nat) (s : fqdn) : Prop := N.of_nat off < 16384 /\ exists n, (n < length s)%nat /\ jumps w off s n.
Lemma near_ext w x off s : near w off s -> near (w ++ x) off s.
Proof. intros (L & n & K & J). split; [exact L|]. exists n. split; [exact K|apply jumps_ext, J]. Qed.
Section Jumps.
Variable h : hasher.
Variable U : fqdn -> Prop.
Definition near_dict (w : bytes) (m : names) : Prop := forall k off, names_get k m = Some off -> exists s, U s /\ h s = k /\ near w off s.
Lemma near_spec (NC : no_collision h U) w0 f : labels_upto 191 f -> suffixes_in U f -> forall m w bs m',
  (forall k off, names_get k m = Some off -> exists s, U s /\ h s = k /\ ((length f < length s)%nat \/ near w0 off s)) ->
  (exists x, w = w0 ++ x) -> fqdn_to_bytes_compressed h f m (length w) = (bs, m') -> N.of_nat (length w + length bs) <= 16384 ->
  (exists n, jumps (w ++ bs) (length w) f n /\ (n <= length f)%nat /\ (names_get (h f) m = None \/ f = [] -> n = 0 \/ n < length f)%nat) /\
  forall k off, names_get k m' = Some off -> names_get k m = Some off \/ exists s, U s /\ h s = k /\ near (w ++ bs) off s.
Proof.
  induction 1 as [|l f Hl Hf IH]; intros HU m w bs m' Hm Hw E Hlen; cbn [fqdn_to_bytes_compressed] in E.
  - inversion E; subst. split; [|auto]. exists 0%nat. split; [|split; [apply Nat.le_refl|auto]]. constructor. rewrite nth_error_app2, Nat.sub_diag by lia. reflexivity.
  - assert (HUf : U (l :: f)) by (apply (HU [] (l :: f)); [reflexivity|discriminate]).
    destruct (names_get (h (l :: f)) m) as [p|] eqn:EG.
    + inversion E; subst. split; [|auto]. destruct (Hm _ _ EG) as (s & Us & Hs & G). apply NC in Hs; [subst s|assumption|assumption].
      destruct G as [G|(G1 & n & G2 & G3)]; [lia|]. destruct Hw as [x ->]. exists (S n). split; [|split; [exact G2|intros [X|X]; discriminate X]].
      apply (one_jump _ _ p); [rewrite <- (app_nil_r (pointer_bytes p)); apply pointer_at_app; assumption|]. rewrite <- app_assoc. apply jumps_ext, G3.
    + destruct (fqdn_to_bytes_compressed h f (names_insert (h (l :: f)) (length w) m) (length w + (length l + 1))) as [bs1 m1] eqn:E1.
      assert (Ebs : bs = label_bytes l ++ bs1 /\ m' = m1) by (inversion E; auto). destruct Ebs as [-> ->]. clear E.
      rewrite app_length in Hlen. cbn [length label_bytes] in Hlen.
      replace (length w + (length l + 1))%nat with (length (w ++ label_bytes l)) in E1 by (rewrite app_length; cbn [label_bytes length]; lia).
      destruct (IH (suffixes_tl U _ _ HU) (names_insert (h (l :: f)) (length w) m) (w ++ label_bytes l) bs1 m1) as ((n & J & Ln & _) & IH2).
      * intros k off. unfold names_insert; cbn [names_get]. destruct (N.eqb_spec k (h (l :: f))) as [->|]; intros Ek.
        -- exists (l :: f). split; [assumption|]. split; [reflexivity|]. left. cbn; lia.
        -- destruct (Hm _ _ Ek) as (s & H1 & H2 & [H3|H3]); exists s; (split; [assumption|]); (split; [assumption|]); [left; cbn in *; lia|right; assumption].
      * destruct Hw as [x ->]. exists (x ++ label_bytes l). rewrite app_assoc. reflexivity.
      * exact E1.
      * rewrite app_length; cbn [length label_bytes]. lia.
      * assert (HN : jumps (w ++ label_bytes l ++ bs1) (length w) (l :: f) n).
        { apply past_label; [apply label_at_app; [lia|exact Hl]|]. rewrite <- app_assoc in J. rewrite !app_length in *. cbn [length label_bytes] in *.
          replace (length w + 1 + length l)%nat with (length w + S (length l))%nat by lia. exact J. }
        split; [exists n; split; [exact HN|]; cbn [length]; split; [lia|intros _; right; lia]|].
        intros k off Ek. destruct (IH2 _ _ Ek) as [Ei|(s & H1 & H2 & H3)].
        -- unfold names_insert in Ei; cbn [names_get] in Ei. destruct (N.eqb_spec k (h (l :: f))) as [->|]; [|auto].
           inversion Ei; subst off. right. exists (l :: f). split; [assumption|]. split; [reflexivity|]. split; [lia|]. exists n. split; [cbn [length]; lia|exact HN].
        -- right. exists s. rewrite <- app_assoc in H3. auto.
Qed.
Lemma near_name (NC : no_collision h U) w m f bs m' : labels_upto 191 f -> suffixes_in U f -> near_dict w m ->
  fqdn_to_bytes_compressed h f m (length w) = (bs, m') -> N.of_nat (length w + length bs) <= 16384 ->
  (exists n, jumps (w ++ bs) (length w) f n /\ (n <= length f)%nat) /\ near_dict (w ++ bs) m'.
Proof.
  intros Hf HU Hd E Hlen. destruct (near_spec NC w f Hf HU m w bs m') as ((n & J & L & _) & H2); try assumption.
  - intros k off Ek. destruct (Hd _ _ Ek) as (s & A & B & C). exists s. auto.
  - exists []. rewrite app_nil_r. reflexivity.
  - split; [exists n; auto|]. intros k off Ek. destruct (H2 _ _ Ek) as [Eo|Hs]; [|exact Hs].
    destruct (Hd _ _ Eo) as (s & A & B & C). exists s. auto using near_ext.
Qed.
End Jumps.
Lemma chunks_near h fs : hash_separates h fs -> forall cs w m w' marks,
  incl (names_of cs) fs -> Forall (labels_upto 191) (names_of cs) -> near_dict h (tail_of fs) w m ->
  write_chunks h cs w m = (w', marks) -> N.of_nat (length w') <= 16384 ->
  Forall (fun x => let '(p, f, q) := x in exists n, jumps w' p f n /\ (n <= length f)%nat) marks.
Proof.
  intros HS. induction cs as [|[b|f] cs IH]; intros w m w' marks HI HL HD E Hlen; cbn [write_chunks] in E.
  - inversion E; subst. constructor.
  - eapply IH; [| | |exact E|assumption]; try assumption. intros k off Ek. destruct (HD k off Ek) as (s & A & B & C). exists s. auto using near_ext.
  - destruct (fqdn_to_bytes_compressed h f m (length w)) as [bs m'] eqn:E0. destruct (write_chunks h cs (w ++ bs) m') as [w1 ms] eqn:E1. injection E as <- <-.
    destruct (write_chunks_ext _ _ _ _ _ _ E1) as [x Ex]. assert (Hb : N.of_nat (length w + length bs) <= 16384) by (rewrite Ex, !app_length in Hlen; lia).
    cbn [names_of flat_map app] in HI, HL. apply Forall_cons_iff in HL as [HL1 HL2].
    destruct (near_name h (tail_of fs) HS w m f bs m') as ((n & J & L) & S2); try assumption.
    { apply tail_of_suffixes, HI. left; reflexivity. }
    constructor.
    + exists n. split; [rewrite Ex; apply jumps_ext, J|exact L].
    + eapply IH; [| |exact S2|exact E1|assumption]; try assumption. intros y Hy. apply HI. right; assumption.
Qed.

(** ** A message is its names and octets between them, through one dictionary *)
Fixpoint run_chunks (h : hasher) (cs : list chunk) (w : bytes) (m : names) : bytes * names :=
  match cs with
  | [] => (w, m)
  | Raw b :: cs' => run_chunks h cs' (w ++ b) m
  | Name f :: cs' => let '(bs, m') := fqdn_to_bytes_compressed h f m (length w) in run_chunks h cs' (w ++ bs) m'
  end.
Lemma run_write h cs : forall w m, fst (write_chunks h cs w m) = fst (run_chunks h cs w m).
Proof.
  induction cs as [|[b|f] cs IH]; intros w m; cbn [write_chunks run_chunks]; [reflexivity|apply IH|].
  destruct (fqdn_to_bytes_compressed h f m (length w)) as [bs m']. rewrite <- IH. destruct (write_chunks h cs (w ++ bs) m'). reflexivity.
Qed.
Lemma run_app h a b : forall w m, run_chunks h (a ++ b) w m = let '(w', m') := run_chunks h a w m in run_chunks h b w' m'.
Proof. induction a as [|[x|f] a IH]; intros w m; cbn [run_chunks app]; [reflexivity|apply IH|]. destruct (fqdn_to_bytes_compressed h f m (length w)). apply IH. Qed.
Definition made (h : hasher) (fs : list fqdn) (w : bytes) (m : names) (bs : bytes) (m' : names) : Prop :=
  exists cs, names_of cs = fs /\ run_chunks h cs w m = (w ++ bs, m').
Lemma made_name h f w m bs m' : fqdn_to_bytes_compressed h f m (length w) = (bs, m') -> made h [f] w m bs m'.
Proof. intros E. exists [Name f]. split; [reflexivity|]. cbn. rewrite E. reflexivity. Qed.
Lemma made_raw h w m bs : made h [] w m bs m.
Proof. exists [Raw bs]. split; reflexivity. Qed.
Lemma made_nil h w m : made h [] w m [] m.
Proof. exists []. split; [reflexivity|]. cbn. rewrite app_nil_r. reflexivity. Qed.
Lemma made_app h fs gs w m a m1 b m2 : made h fs w m a m1 -> made h gs (w ++ a) m1 b m2 -> made h (fs ++ gs) w m (a ++ b) m2.
Proof.
  intros (x & Nx & Ex) (y & Ny & Ey). exists (x ++ y). split; [unfold names_of in *; rewrite flat_map_app, Nx, Ny; reflexivity|].
  rewrite run_app, Ex, Ey, app_assoc. reflexivity.
Qed.
Lemma made_front h fs w m a b m2 : made h fs (w ++ a) m b m2 -> made h fs w m (a ++ b) m2.
Proof. intros M. apply (made_app h [] fs w m a m b m2 (made_raw h w m a) M). Qed.
Lemma made_back h fs w m a b m1 : made h fs w m a m1 -> made h fs w m (a ++ b) m1.
Proof. intros M. rewrite <- (app_nil_r fs). apply (made_app h fs [] w m a m1 b m1 M). apply made_raw. Qed.
Lemma rdata_made c h d w m bs m' : rdata_to_bytes_compressed c h d m (length w) = Ok (bs, m') -> made h (rdata_names d) w m bs m'.
Proof.
  intros E. destruct d; cbn [rdata_to_bytes_compressed rdata_names] in *;
    try (apply rbind_ok in E; destruct E as (b & E1 & E); injection E as <- <-; apply made_raw).
  - injection E as E. apply made_name, E.
  - injection E as E. apply made_name, E.
  - injection E as E. unfold soa_to_bytes_compressed in E. destruct (fqdn_to_bytes_compressed h (soa_mname x) m (length w)) as [b1 m1] eqn:E1.
    destruct (fqdn_to_bytes_compressed h (soa_rname x) m1 (length w + length b1)) as [b2 m2] eqn:E2. apply pair_equal_spec in E. destruct E as [<- <-].
    apply (made_app h [soa_mname x] [soa_rname x] w m b1 m1 (b2 ++ soa_fixed_bytes x) m2); [apply made_name, E1|apply made_back, made_name; rewrite app_length; exact E2].
  - injection E as E. apply made_name, E.
  - injection E as E. unfold minfo_to_bytes_compressed in E. destruct (fqdn_to_bytes_compressed h (minfo_r x) m (length w)) as [b1 m1] eqn:E1.
    destruct (fqdn_to_bytes_compressed h (minfo_e x) m1 (length w + length b1)) as [b2 m2] eqn:E2. apply pair_equal_spec in E. destruct E as [<- <-].
    apply (made_app h [minfo_r x] [minfo_e x] w m b1 m1 b2 m2); [apply made_name, E1|apply made_name; rewrite app_length; exact E2].
  - injection E as E. unfold mx_to_bytes_compressed in E. destruct (fqdn_to_bytes_compressed h (mx_exchange x) m (length w + 2)) as [b1 m1] eqn:E1. apply pair_equal_spec in E. destruct E as [<- <-].
    apply made_front, made_name. rewrite app_length, be_length. exact E1.
  - injection E as E. unfold srv_to_bytes_compressed in E. destruct (fqdn_to_bytes_compressed h (srv_target x) m (length w + 6)) as [b1 m1] eqn:E1. apply pair_equal_spec in E. destruct E as [<- <-].
    apply made_front, made_name. unfold srv_fixed_bytes. rewrite !app_length, !be_length. exact E1.
  - injection E as E. unfold naptr_to_bytes_compressed in E. cbv zeta in E. destruct (fqdn_to_bytes_compressed h (na_repl x) m (length w + length (naptr_fixed_bytes x))) as [b1 m1] eqn:E1. apply pair_equal_spec in E. destruct E as [<- <-].
    apply made_front, made_name. rewrite app_length. exact E1.
  - unfold nsec_to_bytes_compressed in E. destruct (fqdn_to_bytes_compressed h (ns_next x) m (length w)) as [b1 m1] eqn:E1. apply rbind_ok in E. destruct E as (ts & _ & E). injection E as <- <-.
    apply made_back, made_name, E1.
Qed.
Lemma question_made c h q w m bs m' : question_to_bytes_compressed c h q m (length w) = (bs, m') -> made h [q_name q] w m bs m'.
Proof.
  unfold question_to_bytes_compressed. destruct (fqdn_to_bytes_compressed h (q_name q) m (length w)) as [b1 m1] eqn:E1. intros E. apply pair_equal_spec in E. destruct E as [<- <-].
  apply made_back, made_name, E1.
Qed.
Lemma record_made c h r w m bs m' : rr_to_bytes_compressed c h r m (length w) = Ok (bs, m') -> made h (rr_names r) w m bs m'.
Proof.
  unfold rr_to_bytes_compressed. destruct (fqdn_to_bytes_compressed h (rr_name r) m (length w)) as [nb m1] eqn:E1. cbv zeta. intros E. apply rbind_ok in E. destruct E as ([db m2] & E2 & E). cbn [fst snd] in E.
  apply (f_equal (fun x => match x with Ok y => y | _ => (bs, m') end)) in E. apply pair_equal_spec in E. destruct E as [E ->]. subst bs.
  change (rr_names r) with ([rr_name r] ++ rdata_names (rr_data r)). rewrite <- app_assoc. apply (made_app h _ _ w m nb m1); [apply made_name, E1|]. apply made_front, made_front.
  apply (rdata_made c). rewrite <- E2. f_equal. rewrite !app_length, !be_length. lia.
Qed.
Lemma questions_made c h qs : forall w m w' m', questions_compressed c h qs w m = (w', m') -> exists bs, w' = w ++ bs /\ made h (map q_name qs) w m bs m'.
Proof.
  induction qs as [|q qs IH]; intros w m w' m' E; cbn [questions_compressed map] in *.
  - injection E as <- <-. exists []. rewrite app_nil_r. split; [reflexivity|apply made_nil].
  - destruct (question_to_bytes_compressed c h q m (length w)) as [b m1] eqn:E1. apply IH in E. destruct E as (bs & -> & M). exists (b ++ bs). split; [symmetry; apply app_assoc|].
    apply (made_app h [q_name q] _ w m b m1 bs m' (question_made c h q _ _ _ _ E1) M).
Qed.
Lemma records_made c h rs : forall w m w' m', records_compressed c h rs w m = Ok (w', m') -> exists bs, w' = w ++ bs /\ made h (flat_map rr_names rs) w m bs m'.
Proof.
  induction rs as [|r rs IH]; intros w m w' m' E; cbn [records_compressed flat_map] in *.
  - injection E as <- <-. exists []. rewrite app_nil_r. split; [reflexivity|apply made_nil].
  - apply rbind_ok in E. destruct E as ([b m1] & E1 & E). cbn [fst snd] in E. apply IH in E. destruct E as (bs & -> & M). exists (b ++ bs). split; [symmetry; apply app_assoc|].
    apply (made_app h _ _ w m b m1 bs m' (record_made c h r _ _ _ _ E1) M).
Qed.
Lemma message_made c h p out : packet_to_bytes_compressed c h p = Ok out -> exists cs marks, names_of cs = packet_names p /\ write_chunks h (Raw (header_to_bytes (p_header p)) :: cs) [] [] = (out, marks).
Proof.
  unfold packet_to_bytes_compressed. intros E. destruct (questions_compressed c h (p_questions p) (header_to_bytes (p_header p)) []) as [w0 m0] eqn:E0.
  apply rbind_ok in E. destruct E as ([w1 m1] & E1 & E). cbn [fst snd] in E. apply rbind_ok in E. destruct E as ([w2 m2] & E2 & E). cbn [fst snd] in E.
  apply rbind_ok in E. destruct E as ([w3 m3] & E3 & E). cbn [fst snd] in E. injection E as <-.
  apply questions_made in E0. destruct E0 as (b0 & -> & M0). apply records_made in E1. destruct E1 as (b1 & -> & M1). apply records_made in E2. destruct E2 as (b2 & -> & M2). apply records_made in E3. destruct E3 as (b3 & -> & M3).
  set (H := header_to_bytes (p_header p)) in *. clearbody H.
  assert (M : made h (packet_names p) H [] (b0 ++ b1 ++ b2 ++ b3) m3).
  { unfold packet_names, records_of. rewrite !flat_map_app. apply (made_app h _ _ H [] b0 m0 _ m3 M0).
    apply (made_app h _ _ _ m0 b1 m1 _ m3 M1). apply (made_app h _ _ _ m1 b2 m2 _ m3 M2). exact M3. }
  destruct M as (cs & N & R). pose proof (run_write h cs H []) as W. rewrite R in W. cbn [fst] in W. destruct (write_chunks h cs H []) as [w marks] eqn:Ew. cbn [fst] in W. subst w.
  exists cs, marks. split; [exact N|]. cbn [write_chunks app]. rewrite <- !app_assoc. exact Ew.
Qed.
Lemma compressed_nonempty h f m o : (1 <= length (fst (fqdn_to_bytes_compressed h f m o)))%nat.
Proof.
  destruct f as [|l f]; cbn [fqdn_to_bytes_compressed]; [cbn; lia|]. destruct (names_get (h (l :: f)) m); [cbn; lia|].
  destruct (fqdn_to_bytes_compressed h f _ _). cbn; lia.
Qed.
Lemma marks_in_order h cs : forall w m from, (from <= length w)%nat -> in_order from (snd (write_chunks h cs w m)).
Proof.
  induction cs as [|[b|f] cs IH]; intros w m from L; cbn [write_chunks]; [exact I|apply IH; rewrite app_length; lia|].
  pose proof (compressed_nonempty h f m (length w)) as B. destruct (fqdn_to_bytes_compressed h f m (length w)) as [bs m']. specialize (IH (w ++ bs) m' (length w + length bs)%nat).
  destruct (write_chunks h cs (w ++ bs) m') as [w' t]. cbn [fst snd in_order] in *. split; [lia|]. apply IH. rewrite app_length. lia.
Qed.
Lemma message_jumps c h p out : hash_separates h (packet_names p) -> Forall (labels_upto 191) (packet_names p) -> packet_to_bytes_compressed c h p = Ok out -> N.of_nat (length out) <= 16384 ->
  exists t, table_names t = packet_names p /\ in_order 12 t /\
    Forall (fun x => let '(b, f, e) := x in extract_fqdn (mkbuf out b) = (Ok f, mkbuf out e) /\ strict_name_at out 191 b f e /\ exists n, (n <= length f)%nat /\ jumps out b f n) t.
Proof.
  intros HS HL E HN. apply message_made in E. destruct E as (cs & t & N & W). exists t. rewrite <- N in HS, HL |- *.
  split; [|split].
  - pose proof (write_chunks_names h (Raw (header_to_bytes (p_header p)) :: cs) [] []) as Tn. rewrite W in Tn. exact Tn.
  - pose proof (marks_in_order h cs (header_to_bytes (p_header p)) [] 12) as O. cbn [write_chunks app] in W. rewrite W in O. apply O. apply Nat.eq_le_incl. reflexivity.
  - pose proof (write_chunks_read h (Raw (header_to_bytes (p_header p)) :: cs) 191 out t [] (N.le_refl _) HS HL W HN) as R.
    assert (J : Forall (fun x => let '(b, f, q) := x in exists n, jumps out b f n /\ (n <= length f)%nat) t).
    { apply (chunks_near h (names_of cs) HS (Raw (header_to_bytes (p_header p)) :: cs) [] [] out t); [apply incl_refl|exact HL| |exact W|exact HN]. intros k off X; discriminate X. }
    rewrite Forall_forall in *. intros x I. specialize (R x I). specialize (J x I). destruct x as [[b f] e]. rewrite app_nil_r in R. destruct R as [R1 R2], J as (n & J1 & J2). split; [exact R2|]. split; [exact R1|]. exists n. auto.
Qed.
Lemma fits_labels f : within_255 f -> Forall (fun l : bytes => (1 <= length l)%nat) f -> (length f <= 127)%nat.
Proof.
  unfold within_255. intros W F. assert (X : (length f <= length (concat f))%nat); [|lia].
  clear W. induction F as [|l f L _ IH]; cbn [concat length]; [lia|]. rewrite app_length. lia.
Qed.
