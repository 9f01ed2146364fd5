(** * What is read is written with the same octets *)
From Coq Require Import Lia ZifyBool ZifyNat ZifyN.
From Verif Require Import Base Utf8 Buffer Fqdn Header Types RDataBasic Bitmap Svcb RDataSec RData Packet BaseFacts Utf8Facts BufferFacts NameSpec FqdnLoop FqdnFacts BitmapFacts NameProps
  CodeSpec CodeFacts RDataSpec RDataFacts ParseFacts HeaderSpec HeaderFacts WireSpec WireFacts SvcbParse FailSpec FailFacts FieldSpec FieldFacts LayoutSpec LayoutFacts LayoutUnique RepairSpec RepairFacts ReadSpec ReadFacts
  RecordSpec RecordProps PacketFacts InteropSpec InteropFacts InteropPacket StrictSpec StrictFacts ObjectSpec ObjectFacts OctetsSpec.
Ltac Zify.zify_post_hook ::= Z.div_mod_to_equations.

Section Fields.
  Context (d : bytes) (B : byte_list d).
  Lemma oct_app a b p m e : octets d a p m -> octets d b m e -> octets d (a ++ b) p e.
  Proof.
    intros Ha Hb. apply octets_is in Ha. apply octets_is in Hb. destruct Ha as (L1 & S1 & ->), Hb as (L2 & S2 & ->). apply octets_is. rewrite app_length.
    split; [lia|]. split; [|lia]. rewrite slice_add. congruence.
  Qed.
  Lemma oct_num w v p e : num d w v p e -> octets d (be w v) p e.
  Proof.
    intros ((L & ->) & ->). assert (E : length (slice d p w) = w) by (apply slice_length; lia).
    change (fold_left _ (slice d p w) 0) with (unbe (slice d p w)). rewrite <- E at 1. rewrite be_unbe by (apply slice_bytes, B). apply octets_slice. exact L.
  Qed.
  Lemma num1_small v p e : num d 1 v p e -> v < 256.
  Proof. intros (H & _). apply number1 in H. apply nth_error_In in H. apply (proj1 (Forall_forall _ _) B) in H. exact H. Qed.
  Lemma oct_num1 v p e : num d 1 v p e -> octets d [v] p e.
  Proof. intros H. pose proof (num1_small _ _ _ H) as L. apply oct_num in H. cbn [be app] in H. rewrite N.mod_small in H by exact L. exact H. Qed.
  Lemma oct_rest s p e : (p <= length d)%nat -> rest d s p e -> octets d s p e.
  Proof.
    intros L (-> & ->). apply octets_is. rewrite skipn_length. split; [lia|]. split; [|lia]. unfold slice. symmetry. apply firstn_all2. rewrite skipn_length. lia.
  Qed.
  Lemma oct_str s p e : str d s p e -> octets d (char_string s) p e.
  Proof.
    intros H. pose proof (str_length d B _ _ _ H) as L. apply (str_octets d B) in H. unfold char_string. replace (len8 (length s)) with (N.of_nat (length s)); [exact H|].
    unfold len8, u8. lia.
  Qed.
  Lemma oct_sized s p e : sized d s p e -> exists m, octets d (be 2 (len16 (length s))) p m /\ octets d s m e.
  Proof.
    intros (m & Nm & O). exists m. split; [|exact O]. replace (len16 (length s)) with (N.of_nat (length s)); [apply oct_num, Nm|].
    destruct Nm as ((L & V) & _). assert (E : length (slice d p 2) = 2%nat) by (apply slice_length; lia).
    pose proof (unbe_bound (slice d p 2) (slice_bytes d B _ _)) as U. rewrite E in U. unfold unbe in U. rewrite <- V in U. cbn in U. unfold len16, u16. rewrite N.mod_small by exact U. reflexivity.
  Qed.
  Lemma oct_name f p m : name d f p m -> octets_at d p (flat_map (fun l => N.of_nat (length l) :: l) f ++ [0]) -> octets d (fqdn_to_bytes f) p m.
  Proof.
    intros H O. pose proof (name_bounded _ _ _ _ H) as (_ & F & _).
    assert (E : fqdn_to_bytes f = flat_map (fun l => N.of_nat (length l) :: l) f ++ [0]) by (apply name_wire_format; eapply Forall_impl; [|exact F]; cbn beta; intros; lia).
    rewrite E. split; [exact O|]. apply (name_at_unique d p f m f _ B H). apply extract_fqdn_iff; [exact B|]. destruct O as (L & S).
    pose proof (name_roundtrip f (firstn p d) (skipn (length (fqdn_to_bytes f)) (skipn p d)) F) as R. cbv zeta in R. rewrite E in R.
    replace (length (firstn p d)) with p in R by (rewrite firstn_length; lia).
    replace (firstn p d ++ _ ++ _) with d in R; [exact R|]. rewrite <- S at 1. unfold slice. rewrite firstn_skipn, firstn_skipn. reflexivity.
  Qed.
  Lemma oct_prefix s q m : octets d s q m -> exists more, skipn q d = s ++ more.
  Proof.
    intros O. apply octets_is in O. destruct O as (L & S & _). exists (skipn (length s) (skipn q d)). rewrite S at 1. unfold slice. symmetry. apply firstn_skipn.
  Qed.
End Fields.

Section Types.
  Context (c : cfg) (w : bytes) (B : byte_list w) (q : nat) (Lq : (q <= length w)%nat).
  Lemma num_ends v k p e : num w k v p e -> e = (p + k)%nat.
  Proof. intros (_ & ->). reflexivity. Qed.
  Ltac ends := repeat match goal with
    | H : num w _ _ _ ?e |- _ => lazymatch goal with _ : (e <= length w)%nat |- _ => fail | _ => pose proof (num_in _ _ _ _ _ H); pose proof (num_ends _ _ _ _ H) end
    | H : name w _ _ ?e |- _ => lazymatch goal with _ : (e <= length w)%nat |- _ => fail | _ => pose proof (name_in _ _ _ _ H) end
    | H : str w _ _ ?e |- _ => lazymatch goal with _ : (e <= length w)%nat |- _ => fail | _ => pose proof (str_in _ _ _ _ H) end
    | H : octets w _ _ ?e |- _ => lazymatch goal with _ : (e <= length w)%nat |- _ => fail | _ => pose proof (octets_in _ _ _ _ H) end
    | H : sized w _ _ ?e |- _ => lazymatch goal with _ : (e <= length w)%nat |- _ => fail | _ => pose proof (sized_in _ _ _ _ H) end
    end.
  Ltac opened H := cbn [pieces laid] in H; open_laid H; try subst; repeat match goal with H : _ /\ _ |- _ => destruct H end; ends.
  Lemma full_name t f p m p' : names_in_full w t q -> name w f p m -> name_place w t q p' -> p = p' -> octets w (fqdn_to_bytes f) p m.
  Proof. intros F N P ->. apply oct_name; [exact B|exact N|]. exact (F _ _ _ P N). Qed.
  Ltac one := first [eassumption | apply oct_num1; [exact B|eassumption] | apply oct_num; [exact B|eassumption] | apply oct_str; [exact B|eassumption] | apply oct_rest; [lia|eassumption]
    | eapply full_name; [eassumption|eassumption|apply first_thing; cbn; tauto|lia]
    | eapply full_name; [eassumption|eassumption|eapply second_name; [cbn; tauto|eassumption]|reflexivity]
    | eapply full_name; [eassumption|eassumption|apply after_number; cbn; tauto|lia]
    | eapply full_name; [eassumption|eassumption|apply after_three_numbers|lia]
    | eapply full_name; [eassumption|eassumption|apply signer|lia]].
  Ltac all := rewrite <- ?app_assoc; first [one | eapply oct_app; [one|]; all].
  Lemma plain_same x m : laid (pieces w c x) q m -> In (rdata_type x) plain_types -> exists s, rdata_to_bytes c x = Ok s /\ octets w s q m.
  Proof.
    intros H I. destruct x; cbn [rdata_type plain_types In] in I; try (exfalso; intuition discriminate); clear I; opened H; (eexists; split; [reflexivity|]);
      unfold a_to_bytes, opaque_to_bytes, wks_to_bytes, hinfo_to_bytes, aaaa_to_bytes, loc_to_bytes, ds_to_bytes, dhcid_to_bytes, tlsa_to_bytes, eui48_to_bytes, eui64_to_bytes, uri_to_bytes.
    all: all.
  Qed.
  Lemma named_same x m : laid (pieces w c x) q m -> In (rdata_type x) name_types -> names_in_full w (rdata_type x) q -> exists s, rdata_to_bytes c x = Ok s /\ octets w s q m.
  Proof.
    intros H I F. destruct x; cbn [rdata_type name_types In] in I; try (exfalso; intuition discriminate); clear I; cbn [rdata_type] in F; opened H; (eexists; split; [reflexivity|]);
      unfold name_to_bytes, soa_to_bytes, minfo_to_bytes, mx_to_bytes, srv_to_bytes, srv_fixed_bytes, rrsig_to_bytes, tkey_to_bytes, tsig_to_bytes;
      try (change (skipn 2 (be 8 ?v)) with (be 6 v)); repeat match goal with H : sized w _ _ _ |- _ => apply (oct_sized w B) in H; destruct H as (? & ? & ?) end.
    all: all.
  Qed.
  Lemma oct_inj a b p m : octets w a p m -> octets w b p m -> a = b.
  Proof. intros ((_ & Sa) & Ea) ((_ & Sb) & Eb). rewrite <- Sa, <- Sb. f_equal. lia. Qed.
  Lemma key_same x m : laid (pieces w c (DDNSKEY x)) q m -> exists f, f < 65536 /\ dk_zone x = N.testbit f 8 /\ dk_sep x = N.testbit f 0 /\ U8 (dk_protocol x) /\
    skipn q w = be 2 f ++ dk_protocol x :: salg_code (dk_alg x) :: dk_pk x.
  Proof.
    intros H. cbn [pieces laid] in H. destruct H as (m0 & (f & (Ez & Es) & Nf) & H). opened H. exists f.
    split. { destruct Nf as ((L & V) & _). assert (E : length (slice w q 2) = 2%nat) by (apply slice_length; lia).
      pose proof (unbe_bound (slice w q 2) (slice_bytes w B _ _)) as U. rewrite E in U. unfold unbe in U. rewrite <- V in U. exact U. }
    split; [exact Ez|]. split; [exact Es|]. split; [unfold U8; eapply num1_small; eassumption|].
    assert (O : octets w (be 2 f ++ [dk_protocol x] ++ [salg_code (dk_alg x)] ++ dk_pk x) q (length w)).
    { match goal with H : rest w _ _ _ |- _ => pose proof (proj2 H) as Em end. subst. all. }
    destruct O as ((L & S) & Em). unfold slice in S. rewrite firstn_all2 in S; [exact S|]. rewrite skipn_length. lia.
  Qed.
  Lemma sshfp_shorter x m : laid (pieces w c (DSSHFP x)) q m -> m = (q + length (sshfp_to_bytes x) + 1)%nat.
  Proof.
    intros H. opened H. unfold sshfp_to_bytes. rewrite !app_length. cbn [length]. match goal with H : str _ _ _ _ |- _ => destruct H as (_ & _ & _ & ?) end. lia.
  Qed.
End Types.
