(** * C137: endpoints of a service *)
From Coq Require Import Lia ZifyBool ZifyNat ZifyN.
From Verif Require Import Base Buffer Fqdn Header Types RDataBasic RDataSec Svcb Bitmap RData Packet BaseFacts FqdnFacts CodeSpec RDataSpec RDataReads CompressSpec ChunkFacts
  RecordSpec HeaderSpec PacketFacts ObjectSpec ObjectFacts Api Equality EqualityFacts PropName PropRecord PropPacket PropTrust PropKnown.

(** ** What users write (RFC 9460, 2.4, 2.5, 7.2 and 8)

    A client that has received SVCB records takes those of the name it is looking for that are not aliases and whose mandatory keys it understands and finds.
    The target is the name itself if it is the root, the port is the usual one if none is given; the smallest priority is tried first. *)
Definition is_port (p : param) : bool := match p with PPort _ => true | _ => false end.
Definition port_of (usual : N) (ps : list param) : N := match find is_port ps with Some (PPort n) => n | _ => usual end.
Definition understood (keys : list pkey) (ps : list param) : bool :=
  forallb (fun p => match p with PMandatory ks => forallb (fun k => existsb (pkey_eqb k) keys && existsb (fun q => pkey_eqb (param_key q) k) ps) ks | _ => true end) ps.
Definition service (x : svcb) : bool := match svcb_mode_of x with ModeService => true | ModeAlias => false end.
Definition found (keys : list pkey) (usual : N) (f : fqdn) (r : rr) : list (N * fqdn * N) :=
  match rr_data r with
  | DSVCB x => if fqdn_eqb (rr_name r) f && service x && understood keys (sv_params x)
               then [(sv_prio x, if fqdn_eqb (sv_target x) [] then f else sv_target x, port_of usual (sv_params x))] else []
  | _ => []
  end.
Definition priority (e : N * fqdn * N) : N := fst (fst e).
Fixpoint put (e : N * fqdn * N) (l : list (N * fqdn * N)) : list (N * fqdn * N) :=
  match l with [] => [e] | e' :: l' => if priority e <=? priority e' then e :: l else e' :: put e l' end.
Definition endpoints (keys : list pkey) (usual : N) (f : fqdn) (got : list packet) : list (N * fqdn * N) :=
  fold_right put [] (flat_map (found keys usual f) (flat_map p_answers got)).

(** ** What is meant *)
Definition offers (says : list rr) (keys : list pkey) (usual : N) (f : fqdn) (prio : N) (host : fqdn) (port : N) : Prop :=
  exists r x, In r says /\ rr_name r = f /\ rr_data r = DSVCB x /\ sv_prio x = prio /\ prio <> 0 /\
    (forall ks k, In (PMandatory ks) (sv_params x) -> In k ks -> In k keys /\ exists q, In q (sv_params x) /\ param_key q = k) /\
    ((sv_target x = [] /\ host = f) \/ (sv_target x <> [] /\ host = sv_target x)) /\
    (In (PPort port) (sv_params x) \/ ((forall n, ~ In (PPort n) (sv_params x)) /\ port = usual)).

Lemma put_in e l x : In x (put e l) <-> x = e \/ In x l.
Proof. induction l as [|e' l IH]; cbn [put]; [cbn; intuition congruence|]. destruct (_ <=? _); cbn [In] in *; rewrite ?IH; intuition congruence. Qed.
Lemma put_all l x : In x (fold_right put [] l) <-> In x l.
Proof. induction l as [|e l IH]; [reflexivity|]. cbn [fold_right In]. rewrite put_in, IH. intuition congruence. Qed.
Fixpoint in_order (l : list (N * fqdn * N)) : Prop := match l with [] => True | e :: l' => Forall (fun e' => priority e <= priority e') l' /\ in_order l' end.
Lemma put_order e l : in_order l -> in_order (put e l).
Proof.
  induction l as [|e' l IH]; [intros _; split; constructor|]. intros (F & O). cbn [put]. destruct (N.leb_spec (priority e) (priority e')) as [L|L].
  - split; [|split; assumption]. constructor; [exact L|]. eapply Forall_impl; [|exact F]. cbv beta. lia.
  - split; [|apply IH, O]. rewrite Forall_forall in *. intros x X. apply put_in in X. destruct X as [->|X]; [lia|apply F, X].
Qed.
Lemma order_all l : in_order (fold_right put [] l). Proof. induction l as [|e l IH]; [exact Logic.I|]. apply put_order, IH. Qed.
Lemma in_order_meaning l : in_order l -> forall a e b e' c, l = a ++ e :: b ++ e' :: c -> priority e <= priority e'.
Proof.
  induction l as [|x l IH]; intros O [|y a] e b e' c E; try discriminate E; destruct O as (F & O).
  - injection E as -> ->. rewrite Forall_forall in F. apply F, in_app_iff. right. left. reflexivity.
  - injection E as -> E. exact (IH O a e b e' c E).
Qed.
Lemma port_iff usual ps n : sorted_by param_code ps -> (port_of usual ps = n <-> In (PPort n) ps \/ ((forall k, ~ In (PPort k) ps) /\ n = usual)).
Proof.
  intros S. unfold port_of. destruct (find is_port ps) as [q|] eqn:E.
  - apply find_some in E. destruct E as (I & P). destruct q; try discriminate P.
    assert (U : forall k, In (PPort k) ps -> k = n0).
    { intros k K. clear P. revert S I K. induction ps as [|p ps IH]; [intros _ []|]. intros (S1 & S2) I K. rewrite Forall_forall in S1.
      destruct I as [->|I], K as [K|K]; [congruence|specialize (S1 _ K); cbn in S1; lia|subst p; specialize (S1 _ I); cbn in S1; lia|]. apply IH; assumption. }
    split; [intros <-; left; exact I|]. intros [K|(K & _)]; [symmetry; apply U, K|destruct (K _ I)].
  - assert (N : forall k, ~ In (PPort k) ps) by (intros k K; apply (find_none _ _ E) in K; discriminate K). split; [intros <-; right; auto|]. intros [K|(_ & ->)]; [destruct (N _ K)|reflexivity].
Qed.
Lemma understood_iff keys ps : understood keys ps = true <-> forall ks k, In (PMandatory ks) ps -> In k ks -> In k keys /\ exists q, In q ps /\ param_key q = k.
Proof.
  unfold understood. rewrite forallb_forall. assert (D : forall k ps', existsb (fun q => pkey_eqb (param_key q) k) ps' = true <-> exists q, In q ps' /\ param_key q = k).
  { intros k ps'. rewrite existsb_exists. split; intros (q & I & E); exists q; (split; [exact I|]); apply (pkey_iff (param_key q) k); exact E. }
  assert (K : forall k, existsb (pkey_eqb k) keys = true <-> In k keys).
  { intros k. rewrite existsb_exists. split; [intros (q & I & E); apply (proj1 (pkey_iff k q)) in E; subst q; exact I|]. intros I. exists k. split; [exact I|]. apply (pkey_iff k k). reflexivity. }
  split.
  - intros H ks k I J. specialize (H _ I). cbn in H. rewrite forallb_forall in H. specialize (H k J). apply andb_true_iff in H. rewrite K, D in H. exact H.
  - intros H p I. destruct p; try reflexivity. apply forallb_forall. intros k J. apply andb_true_iff. rewrite K, D. exact (H _ k I J).
Qed.
Lemma typed_answers c ms : Forall (fun m => exists h, sent c h (fst m) (snd m)) ms -> Forall (fun r => rdata_typed c (rr_data r)) (flat_map p_answers (map fst ms)).
Proof.
  intros F. induction F as [|(p, out) ms (h & S) F IH]; [constructor|]. cbn [map fst flat_map]. apply Forall_app. split; [|exact IH]. cbn [fst snd] in S.
  assert (T : Forall (fun r => rdata_typed c (rr_data r)) (records_of p)).
  { destruct S as [(_ & _ & O) _ _|(_ & _ & O) _ _ _ _]; (eapply Forall_impl; [|exact O]); [intros r ((_ & T & _) & _); exact T|intros r (_ & T & _); exact T]. }
  unfold records_of in T. apply Forall_app in T. apply T.
Qed.

(** ** Theorems *)
(** Exactly what the records as sent offer is found, and in order. *)
Theorem C137_found_partial : forall (c : cfg) (ms : list (packet * bytes)) (keys : list pkey) (usual : N) (f : fqdn), Forall (fun m => exists h, sent c h (fst m) (snd m)) ms ->
  exists got, delivered c ms got /\
    (forall prio host port, In (prio, host, port) (endpoints keys usual f got) <-> offers (flat_map p_answers (map fst ms)) keys usual f prio host port) /\
    (forall a e b e' z, endpoints keys usual f got = a ++ e :: b ++ e' :: z -> priority e <= priority e').
Proof.
  intros c ms keys usual f F. pose proof (typed_answers c ms F) as T. destruct (all_arrive c ms F) as (got & D & E & _). exists got. split; [exact D|]. unfold endpoints. rewrite E.
  set (says := flat_map p_answers (map fst ms)) in *. clearbody says. clear E D F got. split; [|apply in_order_meaning, order_all].
  intros prio host port. rewrite put_all, in_flat_map. rewrite Forall_forall in T. unfold found, offers, service, svcb_mode_of. split.
  - intros (r & I & H). specialize (T r I). destruct (rr_data r) eqn:Dr; try destruct H. destruct T as (_ & _ & So & _).
    destruct (fqdn_eqb (rr_name r) f) eqn:N; [|destruct H]. apply fqdn_eqb_iff in N. destruct (N.eqb_spec (sv_prio x) 0) as [Z|Z]; [destruct H|]. cbn [andb] in H.
    destruct (understood keys (sv_params x)) eqn:U; [|destruct H]. pose proof (proj1 (understood_iff _ _) U) as U1. clear U. rename U1 into U. destruct H as [H|[]]. injection H as P H Po.
    exists r, x. apply (proj1 (port_iff _ _ _ So)) in Po. split; [exact I|]. split; [exact N|]. split; [exact Dr|]. split; [exact P|]. split; [congruence|]. split; [exact U|]. split; [|exact Po].
    destruct (fqdn_eqb (sv_target x) []) eqn:Ta; [apply fqdn_eqb_iff in Ta; left; auto|right]. split; [intros X; apply fqdn_eqb_iff in X; congruence|congruence].
  - intros (r & x & I & N & Dr & P & Z & U & Ta & Po). exists r. split; [exact I|]. specialize (T r I). rewrite Dr in *. destruct T as (_ & _ & So & _).
    apply fqdn_eqb_iff in N. rewrite N. replace (sv_prio x =? 0) with false by lia. apply (proj2 (understood_iff _ _)) in U. rewrite U. cbn [andb]. left. apply (proj2 (port_iff _ _ _ So)) in Po. rewrite Po, P.
    destruct Ta as [(Ta & ->)|(Ta & ->)]; [apply fqdn_eqb_iff in Ta; rewrite Ta; reflexivity|]. destruct (fqdn_eqb (sv_target x) []) eqn:X; [apply fqdn_eqb_iff in X; congruence|reflexivity].
Qed.

(** Parameters that are not known, and not mandatory, are to be passed over; but the message is rejected.  (7 is the path of DNS over HTTPS, RFC 9461.) *)
Definition dohpath_message : bytes := [0; 7; 132; 0; 0; 0; 0; 1; 0; 0; 0; 0] ++ fqdn_to_bytes ex_www ++ [0; 64; 0; 1; 0; 0; 0; 60; 0; 8; 0; 1; 0; 0; 7; 0; 1; 47].
Theorem C137_unknown_refuted : forall c : cfg, packet_try_from c dohpath_message = Err (InvalidSvcbParam 7).
Proof. intros c. destruct c as [[|] [|] [|]]; vm_compute; reflexivity. Qed.
(** In plain form a record with a port does not arrive. *)
Definition svcb_record (f : fqdn) (prio : N) (target : fqdn) (ps : list param) : rr := mkRR f SVCB false CIN 60 (DSVCB (mkSvcb prio target ps)).
Lemma svcb_ok c f prio target ps : fqdn_ok f -> fqdn_ok target -> prio < 65536 -> sorted_by param_code ps -> Forall param_typed ps -> Forall param_fits ps -> rr_ok c (svcb_record f prio target ps).
Proof. intros F T P S Ty Fi. destruct c as [[|] [|] [|]]; repeat split; try assumption; try discriminate; reflexivity. Qed.
Lemma svcb_packet_ok c l : Forall (rr_ok c) l -> (length l < 1000)%nat -> packet_ok c (ex_knows l).
Proof. intros F L. split; [unfold header_typed; cbn -[N.of_nat]; lia|]. split; [constructor|]. unfold records_of. cbn. rewrite app_nil_r. exact F. Qed.
Theorem C137_plain_refuted : forall c : cfg, exists (p : packet) (out : bytes), packet_ok c p /\ counts_of p = true_counts p /\ packet_to_bytes c p = Ok out /\
  offers (p_answers p) [] 443 ex_www 1 ex_www 8443 /\ forall p', packet_try_from c out <> Ok p'.
Proof.
  intros c. exists (ex_knows [svcb_record ex_www 1 [] [PPort 8443]]). assert (O : packet_ok c (ex_knows [svcb_record ex_www 1 [] [PPort 8443]])).
  { apply svcb_packet_ok; [|cbn; lia]. constructor; [|constructor]. apply svcb_ok; [exact ex_name_ok|constructor|reflexivity|repeat constructor|repeat constructor|repeat constructor]. }
  assert (Of : offers [svcb_record ex_www 1 [] [PPort 8443]] [] 443 ex_www 1 ex_www 8443).
  { eexists. eexists. split; [left; reflexivity|]. do 3 (split; [reflexivity|]). split; [discriminate|]. split; [intros ks k [X|[]]; discriminate X|]. split; [left; split; reflexivity|]. left. left. reflexivity. }
  destruct c as [[|] [|] [|]]; eexists; (split; [exact O|split; [reflexivity|split; [vm_compute; reflexivity|split; [exact Of|]]]]); intros p' X; vm_compute in X; discriminate X.
Qed.
(** A record under another spelling of the name is not found. *)
Theorem C137_case_refuted : forall c : cfg, exists (h : hasher) (p p' : packet) (out : bytes) (f g : fqdn), sent c h p out /\ p_answers p = [svcb_record g 1 [] []] /\ same_name f g /\
  offers [svcb_record f 1 [] []] [] 443 f 1 f 443 /\ packet_try_from c out = Ok p' /\ endpoints [] 443 f [p'] = [].
Proof.
  intros c. exists ex_hash. set (g := [[87; 87; 87]; [101;120;97;109;112;108;101]; [99;111;109]]). set (p := ex_knows [svcb_record g 1 [] []]).
  assert (O : packet_ok c p).
  { apply svcb_packet_ok; [|cbn; lia]. constructor; [|constructor]. apply svcb_ok; [unfold fqdn_ok, label_ok, g; repeat constructor; cbn; lia|constructor|reflexivity|repeat constructor|repeat constructor|repeat constructor]. }
  assert (Of : offers [svcb_record ex_www 1 [] []] [] 443 ex_www 1 ex_www 443).
  { eexists. eexists. split; [left; reflexivity|]. do 3 (split; [reflexivity|]). split; [discriminate|]. split; [intros ks k []|]. split; [left; split; reflexivity|]. right. split; [intros n []|reflexivity]. }
  exists p. assert (S : hash_separates ex_hash (packet_names p)) by (apply separates_b_true; vm_compute; reflexivity).
  destruct c as [[|] [|] [|]]; do 2 eexists; exists ex_www, g; (split; [apply sent_compressed; [exact O|reflexivity|exact S|vm_compute; reflexivity|vm_compute; discriminate]|]);
    (split; [reflexivity|split; [reflexivity|split; [exact Of|split; [vm_compute; reflexivity|vm_compute; reflexivity]]]]).
Qed.

(** Three records, one of them with a mandatory key that is not understood. *)
Example C137_ex : exists out, let p := ex_knows [svcb_record ex_www 2 [] [PPort 8443]; svcb_record ex_www 3 [[99;111;109]] [PMandatory [KPrivate 65280]; PPrivate 65280 [7]]; svcb_record ex_www 1 [[99;111;109]] [PMandatory [KPort]; PPort 853]] in
  sent ex_cfg ex_hash p out /\ packet_try_from ex_cfg out = Ok p /\ endpoints [KPort; KAlpn] 443 ex_www [p] = [(1, [[99;111;109]], 853); (2, ex_www, 8443)].
Proof.
  assert (O : packet_ok ex_cfg (ex_knows [svcb_record ex_www 2 [] [PPort 8443]; svcb_record ex_www 3 [[99;111;109]] [PMandatory [KPrivate 65280]; PPrivate 65280 [7]]; svcb_record ex_www 1 [[99;111;109]] [PMandatory [KPort]; PPort 853]])).
  { apply svcb_packet_ok; [|cbn; lia]. repeat (apply Forall_cons; [apply svcb_ok; [exact ex_name_ok|unfold fqdn_ok, label_ok; repeat constructor; cbn; lia|reflexivity|..]|]); try apply Forall_nil.
    all: repeat first [apply Forall_cons|apply Forall_nil|split|exact Logic.I|reflexivity|discriminate]. }
  eexists. cbv zeta. split; [apply sent_compressed; [exact O|reflexivity|apply separates_b_true; vm_compute; reflexivity|vm_compute; reflexivity|vm_compute; discriminate]|].
  split; vm_compute; reflexivity.
Qed.
Print Assumptions C137_found_partial.
Print Assumptions C137_unknown_refuted.
Print Assumptions C137_plain_refuted.
Print Assumptions C137_case_refuted.
