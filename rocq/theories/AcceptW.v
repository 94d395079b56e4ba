(** Witnesses for Prop_Accept. *)
From Verif Require Import Base NameM WireM RRM SerM ValM NameSpec RecSpec CodecSpec ValSpec ValP ValP2 ValP3 ValW ValW2 OrderW AcceptSpec AcceptP AcceptP2 AcceptP3 AcceptP4.
From Coq Require Import String Permutation Arith.
Local Open Scope N_scope.

(** No signature over nothing with labels 255. *)
Lemma not_max inp : forallb (fun r => match r with RR_RRSig s => negb (rs_labels s =? 255) | _ => true end) inp = true ->
  forall s, In (RR_RRSig s) inp -> ~ EmptyMaxLabels inp s.
Proof.
  intros H s Hs (_ & E & _). rewrite forallb_forall in H. apply H in Hs. rewrite E in Hs. discriminate.
Qed.
Lemma no_nsec3 inp : forallb (fun r => match r with RR_NSec3 _ => false | _ => true end) inp = true -> forall e, TwoParams e inp.
Proof.
  intros H e z nc ty _. exists (0, []), (0, []). intros n pre (z' & s & _ & _ & _ & Hn) _. apply in_rrset in Hn as [Hn _]. rewrite forallb_forall in H. apply H in Hn. discriminate.
Qed.
Lemma signers inp z : (forall s, In (RR_RRSig s) inp -> rs_ty s <> 43 -> rs_ty s <> 47 -> rs_key_name s = z \/ exists ls, LabelsOf (rs_name s) ls /\ N.of_nat (List.length ls) = rs_labels s) ->
  forall e, OneZone e inp.
Proof.
  intros H e a b nc ty ty' Ha Hb.
  assert (G : forall y t, NeedsDenial e inp y nc t -> y = z).
  { intros y t (s & pre & l & suf & _ & ((G1 & G2 & _) & _) & N43 & N47 & _ & L & K & _). destruct (H s G1 N43 N47) as [E | (ls & L1 & L2)]; [congruence |].
    pose proof (labelsof_inj _ _ _ L L1) as E. rewrite <- E, app_length in L2. cbn [List.length] in L2. lia. }
  rewrite (G _ _ Ha), (G _ _ Hb). reflexivity.
Qed.

(** The wildcard answer of OrderW. *)
Lemma o_wild_max s : In (RR_RRSig s) o_wild -> ~ EmptyMaxLabels o_wild s.
Proof. apply not_max. vm_compute. reflexivity. Qed.
Lemma o_wild_two : TwoParams echo_env o_wild.
Proof. apply no_nsec3. vm_compute. reflexivity. Qed.
Lemma o_wild_one e : OneZone e o_wild.
Proof.
  apply (signers _ (bs "a.")). intros s Hs N43 N47. unfold o_wild, o_zones in Hs. cbn [app In] in Hs.
  repeat match goal with H : _ \/ _ |- _ => destruct H as [H | H] end; try discriminate; try contradiction; injection Hs as <-; try (exfalso; apply N43; reflexivity); try (exfalso; apply N47; reflexivity); try (left; reflexivity).
  right. exists []. split; [| reflexivity]. split; [reflexivity |]. split; [constructor | discriminate].
Qed.
(** The same without the NSEC record. *)
Definition o_undenied : list RR := o_zones ++ [w_a "x.a."; o_sig "x.a." 1 1 "a." [w_a "x.a."]].
(** One octet of the address changed. *)
Definition o_forged : list RR := o_zones ++ [RR_A {| a_name := bs "x.a."; a_addr := [127; 0; 0; 2] |}; o_sig "x.a." 1 2 "a." [w_a "x.a."]].
Lemma o_undenied_held : Forall Held o_undenied.
Proof. unfold o_undenied. o_held_all. Qed.
Lemma o_forged_held : Forall Held o_forged.
Proof. unfold o_forged. o_held_all. Qed.

Lemma acceptable_by e inp fuel st : Forall Held inp -> (forall s, In (RR_RRSig s) inp -> ~ EmptyMaxLabels inp s) ->
  zone_loop e false inp fuel vinit = Ok st -> v_res st <> [] -> v_inception st < v_expiry st -> Acceptable e inp.
Proof. intros. eapply loop_acceptable; eauto. Qed.

(** If a stream with one zone signing wildcards is turned down with any fuel, it is at fault. *)
Lemma verify_fuel e fuel fuel' inp o o' : verify_rr_stream e false fuel inp = o -> o <> Loop -> verify_rr_stream e false fuel' inp = o' -> o' <> Loop -> o = o'.
Proof.
  intros H1 N1 H2 N2. destruct (Nat.le_ge_cases fuel fuel') as [L | L].
  - pose proof (ValP4.verify_mono e false inp fuel fuel') as M. rewrite H1 in M. rewrite H2 in M. symmetry. apply M; auto.
  - pose proof (ValP4.verify_mono e false inp fuel' fuel) as M. rewrite H1 in M. rewrite H2 in M. apply M; auto.
Qed.
Lemma o_undenied_acceptable : Acceptable echo_env o_undenied.
Proof.
  destruct (zone_loop echo_env false o_undenied 10 vinit) as [st| | |] eqn:E; [| vm_compute in E; discriminate ..].
  eapply acceptable_by; [exact o_undenied_held | apply not_max; vm_compute; reflexivity | exact E | |].
  - vm_compute in E. injection E as <-. discriminate.
  - vm_compute in E. injection E as <-. vm_compute. reflexivity.
Qed.
Lemma turned_down e inp fuel : verify_rr_stream e false fuel inp = Err Invalid -> ~ exists fuel' v, verify_rr_stream e false fuel' inp = Ok v.
Proof. intros H (f & v & K). pose proof (verify_fuel _ _ _ _ _ _ H (fun X => ltac:(discriminate X)) K (fun X => ltac:(discriminate X))). discriminate. Qed.
Lemma o_forged_unacceptable : ~ Acceptable echo_env o_forged.
Proof.
  intros A. apply (turned_down echo_env o_forged 10); [vm_compute; reflexivity |].
  apply acceptable_accepted; [exact o_forged_held | apply not_max; vm_compute; reflexivity | exact echo_sorts | apply no_nsec3; vm_compute; reflexivity | exact A |].
  intros z nc ty (s & pre & l & suf & _ & ((G1 & _) & _) & N43 & N47 & _ & L & K & _). exfalso.
  unfold o_forged, o_zones in G1. cbn [app In] in G1.
  assert (XX : forall ls, LabelsOf (rs_name s) ls -> N.of_nat (List.length ls) = rs_labels s -> False).
  { intros ls L1 L2. rewrite <- (labelsof_inj _ _ _ L L1), app_length in L2. cbn [List.length] in L2. lia. }
  repeat match goal with H : _ \/ _ |- _ => destruct H as [H | H] end; try discriminate; try contradiction; injection G1 as <-; try (apply N43; reflexivity); try (apply N47; reflexivity).
  - apply (XX []); [| reflexivity]. split; [reflexivity |]. split; [constructor | discriminate].
  - apply (XX [[97]]); [| reflexivity]. split; [reflexivity |]. split; [repeat constructor; vm_compute; discriminate | discriminate].
  - apply (XX [[120]; [97]]); [| reflexivity]. exact labels_xa.
Qed.

(** ** Two zones with a wildcard answer for the same name; only the parent denies it. *)
Definition w_two_zones : list RR :=
  w_root ++ w_zone "b." 1 ++ w_zone "a.b." 2 ++
  [w_a "x.a.b."; w_sig "x.a.b." 1 2 "b."; w_sig "x.a.b." 1 2 "a.b."; w_nsec "b." "z.b." [2]; w_sig "b." 47 1 "b."].
Lemma two_zones_held : Forall Held w_two_zones.
Proof. held_all. Qed.
Lemma two_zones_ok : exists v, run w_two_zones = Ok v /\ vr_rrs v = [w_a "x.a.b."].
Proof. eexists. split; vm_compute; reflexivity. Qed.
Lemma one_zone_refuted : ~ (forall e inp fuel v, Forall Held inp -> SortsNeeds e -> (forall s, In (RR_RRSig s) inp -> ~ EmptyMaxLabels inp s) -> TwoParams e inp ->
  verify_rr_stream e false fuel inp = Ok v -> Denials e inp).
Proof.
  intros H. destruct two_zones_ok as (v & E & _). assert (HM : forall s, In (RR_RRSig s) w_two_zones -> ~ EmptyMaxLabels w_two_zones s) by (apply not_max; vm_compute; reflexivity).
  specialize (H toy_env w_two_zones 10%nat v two_zones_held toy_sorts HM ltac:(apply no_nsec3; vm_compute; reflexivity) E).
  destruct (zone_loop toy_env false w_two_zones 10 vinit) as [st| | |] eqn:EZ; [| vm_compute in EZ; discriminate ..].
  pose proof (loop_complete _ _ _ _ EZ) as C.
  assert (N : NeedsDenial toy_env w_two_zones (bs "a.b.") (bs "x.a.b.") 1).
  { apply (complete_needs toy_env w_two_zones two_zones_held HM st C). vm_compute in EZ. injection EZ as <-. cbn [v_needs]. left. reflexivity. }
  apply H in N. apply (complete_denied toy_env w_two_zones two_zones_held st _ _ _ C) in N.
  assert (R : v_res st = [w_a "x.a.b."; w_nsec "b." "z.b." [2]]) by (vm_compute in EZ; injection EZ as <-; reflexivity). rewrite R in N.
  destruct N as [(n & p & [N | [N | []]] & P & _) | (n & p & [N | [N | []]] & P & _)]; try discriminate.
  injection N as <-. cbn [ns_name] in P. apply (f_equal (@List.length N)) in P. rewrite app_length in P. change (List.length (bs "b.")) with 2%nat in P. change (List.length (bs "a.b.")) with 4%nat in P. lia.
Qed.

(** ** Three sets of NSEC3 parameters; the third record denies. *)
Definition n3_env : env :=
  {| e_sha1 := fun _ => repeat 85 20; e_sha256 := fun _ => root_digest_20326; e_sig := fun _ _ _ _ => true; e_sort_needs := fun l => l |}.
Lemma n3_sorts : SortsNeeds n3_env.
Proof. intros l. apply Permutation_refl. Qed.
Definition w_nsec3 (hash : string) (iters : N) : RR :=
  RR_NSec3 {| n3_name := bs hash ++ bs ".a."; n3_algo := 1; n3_flags := 0; n3_iters := iters; n3_salt := [171]; n3_next_hash := repeat 255 20; n3_types := mask_from_types [1] |}.
Definition w_nsec3_sig (hash : string) : RR := w_sig (hash ++ ".a.") 50 2 "a.".
Definition hash_0 : string := "00000000000000000000000000000000".
Definition hash_u : string := "uuuuuuuuuuuuuuuuuuuuuuuuuuuuuuuu".
Definition hash_v : string := "vvvvvvvvvvvvvvvvvvvvvvvvvvvvvvvv".
Definition w_three_params : list RR :=
  w_root ++ w_zone "a." 1 ++ [w_a "x.a."; w_sig "x.a." 1 1 "a."; w_nsec3 hash_u 1; w_nsec3_sig hash_u; w_nsec3 hash_v 2; w_nsec3_sig hash_v; w_nsec3 hash_0 3; w_nsec3_sig hash_0].
(** The same with the third record first. *)
Definition w_three_params' : list RR :=
  w_root ++ w_zone "a." 1 ++ [w_a "x.a."; w_sig "x.a." 1 1 "a."; w_nsec3 hash_0 3; w_nsec3_sig hash_0; w_nsec3 hash_u 1; w_nsec3_sig hash_u; w_nsec3 hash_v 2; w_nsec3_sig hash_v].
Ltac n3_held := unfold Held; cbn [typed_rr w_key w_ds w_sig w_a w_nsec3 w_nsec3_sig];
  repeat match goal with |- _ /\ _ => split | |- is_mask _ => split; [vm_compute; reflexivity|] | |- is_bytes _ => bytes_in_range | |- _ => in_range end.
Lemma three_params_held : Forall Held w_three_params.
Proof. unfold w_three_params, w_root, w_zone. cbn [app]. repeat (apply Forall_cons; [n3_held |]). apply Forall_nil. Qed.
Lemma three_params_rejected : verify_rr_stream n3_env false 10 w_three_params = Err Invalid.
Proof. vm_compute. reflexivity. Qed.
Lemma three_params_accepted : exists v, verify_rr_stream n3_env false 10 w_three_params' = Ok v /\ vr_rrs v = [w_a "x.a."].
Proof. eexists. split; vm_compute; reflexivity. Qed.
Lemma three_params_good : Acceptable n3_env w_three_params /\ Denials n3_env w_three_params.
Proof.
  assert (HM : forall s, In (RR_RRSig s) w_three_params -> ~ EmptyMaxLabels w_three_params s) by (apply not_max; vm_compute; reflexivity).
  destruct (zone_loop n3_env false w_three_params 10 vinit) as [st| | |] eqn:EZ; [| vm_compute in EZ; discriminate ..].
  assert (R : v_res st = [w_a "x.a."; w_nsec3 hash_u 1; w_nsec3 hash_v 2; w_nsec3 hash_0 3] /\ v_needs st = [(bs "x.a.", bs "a.", 1)] /\ v_inception st < v_expiry st).
  { vm_compute in EZ. injection EZ as <-. split; [reflexivity |]. split; [reflexivity |]. vm_compute. reflexivity. }
  destruct R as (R1 & R2 & R3). pose proof (loop_complete _ _ _ _ EZ) as C. split.
  - eapply acceptable_by; [exact three_params_held | exact HM | exact EZ | rewrite R1; discriminate | exact R3].
  - intros z nc ty N. apply (complete_denied n3_env _ three_params_held st _ _ _ C).
    apply (complete_needs n3_env _ three_params_held HM st C) in N. rewrite R2 in N. destruct N as [N | []].
    assert (nc = bs "x.a." /\ z = bs "a." /\ ty = 1) as (-> & -> & ->) by (split; [| split]; congruence).
    right. rewrite R1. eexists _, _. split; [right; right; right; left; reflexivity |]. split; [cbn [n3_name]; change (bs hash_0 ++ bs ".a.") with ((bs hash_0 ++ [46]) ++ bs "a."); reflexivity |].
    exists (repeat 0 20), (repeat 85 20). split.
    + split; [reflexivity |]. split; [reflexivity |]. split; [vm_compute; discriminate |]. split.
      * exists (bs hash_0), [bs "a"]. split; [reflexivity |]. split; [vm_compute; intuition discriminate |]. split; [| reflexivity].
        apply CodecP.decode_spec; [bytes_in_range | vm_compute; reflexivity].
      * split; [vm_compute; reflexivity | reflexivity].
    + right. split; [right |]; apply OrdP.bytes_cmp_lex; vm_compute; reflexivity.
Qed.
Lemma two_params_refuted : ~ (forall e inp, Forall Held inp -> SortsNeeds e -> (forall s, In (RR_RRSig s) inp -> ~ EmptyMaxLabels inp s) -> OneZone e inp ->
  Acceptable e inp -> Denials e inp -> exists fuel v, verify_rr_stream e false fuel inp = Ok v).
Proof.
  intros H. destruct three_params_good as [A D]. eapply (turned_down _ _ _ three_params_rejected). apply H; [exact three_params_held | exact n3_sorts | apply not_max; vm_compute; reflexivity | | exact A | exact D].
  apply (signers _ (bs "a.")). intros s Hs N43 N47. unfold w_three_params, w_root, w_zone in Hs. cbn [app In] in Hs.
  repeat match goal with H : _ \/ _ |- _ => destruct H as [H | H] end; try discriminate; try contradiction; injection Hs as <-; try (exfalso; apply N43; reflexivity); try (exfalso; apply N47; reflexivity); try (left; reflexivity).
  right. exists []. split; [| reflexivity]. split; [reflexivity |]. split; [constructor | discriminate].
Qed.

(** ** The last NSEC and the last NSEC3 of a zone *)
(** x.a. is after the last name c.a. of the zone. *)
Definition w_last_nsec : list RR :=
  w_root ++ w_zone "a." 1 ++ [w_a "x.a."; w_sig "x.a." 1 1 "a."; w_nsec "c.a." "a." [1]; w_sig "c.a." 47 2 "a."].
(** The hash of x.a. is after the hash 10..0 of the last NSEC3, whose next hash is the first one. *)
Definition hash_1 : string := "10000000000000000000000000000000".
Definition w_last3 : RR :=
  RR_NSec3 {| n3_name := bs hash_1 ++ bs ".a."; n3_algo := 1; n3_flags := 0; n3_iters := 0; n3_salt := [171]; n3_next_hash := repeat 0 20; n3_types := mask_from_types [1] |}.
Definition w_last_nsec3 : list RR :=
  w_root ++ w_zone "a." 1 ++ [w_a "x.a."; w_sig "x.a." 1 1 "a."; w_last3; w_nsec3_sig hash_1].
Lemma last_nsec_held : Forall Held w_last_nsec.
Proof. held_all. Qed.
Lemma last_nsec3_held : Forall Held w_last_nsec3.
Proof. unfold w_last_nsec3, w_root, w_zone, w_last3. cbn [app]. repeat (apply Forall_cons; [n3_held |]). apply Forall_nil. Qed.
Lemma last_nsec_rejected : run w_last_nsec = Err Invalid.
Proof. vm_compute. reflexivity. Qed.
Lemma last_nsec3_rejected : verify_rr_stream n3_env false 10 w_last_nsec3 = Err Invalid.
Proof. vm_compute. reflexivity. Qed.

Lemma xa_state e inp st r : Forall Held inp -> (forall s, In (RR_RRSig s) inp -> ~ EmptyMaxLabels inp s) -> zone_loop e false inp 10 vinit = Ok st ->
  v_res st = [w_a "x.a."; r] -> v_needs st = [(bs "x.a.", bs "a.", 1)] -> v_inception st < v_expiry st ->
  Acceptable e inp /\ Proven e inp r /\ forall z nc ty, NeedsDenial e inp z nc ty -> z = bs "a." /\ nc = bs "x.a.".
Proof.
  intros Hh HM EZ R1 R2 R3. pose proof (loop_complete _ _ _ _ EZ) as C. split; [| split].
  - eapply acceptable_by; [exact Hh | exact HM | exact EZ | rewrite R1; discriminate | exact R3].
  - apply proven_iff; [exact Hh |]. apply (co_res _ _ _ C). rewrite R1. right. left. reflexivity.
  - intros z nc ty N. apply (complete_needs e _ Hh HM st C) in N. rewrite R2 in N. destruct N as [N | []]. split; congruence.
Qed.

Lemma last_nsec_good : Acceptable toy_env w_last_nsec /\ RfcDenials toy_env w_last_nsec.
Proof.
  destruct (zone_loop toy_env false w_last_nsec 10 vinit) as [st| | |] eqn:EZ; [| vm_compute in EZ; discriminate ..].
  assert (R : v_res st = [w_a "x.a."; w_nsec "c.a." "a." [1]] /\ v_needs st = [(bs "x.a.", bs "a.", 1)] /\ v_inception st < v_expiry st).
  { vm_compute in EZ. injection EZ as <-. split; [reflexivity |]. split; [reflexivity |]. vm_compute. reflexivity. }
  destruct R as (R1 & R2 & R3). destruct (xa_state _ _ st _ last_nsec_held ltac:(apply not_max; vm_compute; reflexivity) EZ R1 R2 R3) as (A & P & D). split; [exact A |].
  intros z nc ty N. destruct (D z nc ty N) as [-> ->]. left. eexists _, (bs "c."). split; [exact P |]. split; [reflexivity |]. split; [| right; reflexivity].
  cbn [ns_name]. apply nsec_ord_names; [vm_compute; reflexivity .. |]. vm_compute. reflexivity.
Qed.
Lemma last_nsec3_good : Acceptable n3_env w_last_nsec3 /\ RfcDenials n3_env w_last_nsec3.
Proof.
  destruct (zone_loop n3_env false w_last_nsec3 10 vinit) as [st| | |] eqn:EZ; [| vm_compute in EZ; discriminate ..].
  assert (R : v_res st = [w_a "x.a."; w_last3] /\ v_needs st = [(bs "x.a.", bs "a.", 1)] /\ v_inception st < v_expiry st).
  { vm_compute in EZ. injection EZ as <-. split; [reflexivity |]. split; [reflexivity |]. vm_compute. reflexivity. }
  destruct R as (R1 & R2 & R3). destruct (xa_state _ _ st _ last_nsec3_held ltac:(apply not_max; vm_compute; reflexivity) EZ R1 R2 R3) as (A & P & D). split; [exact A |].
  intros z nc ty N. destruct (D z nc ty N) as [-> ->]. right. eexists _, (bs hash_1 ++ [46]). split; [exact P |]. split; [reflexivity |].
  exists (8 :: repeat 0 19), (repeat 85 20). split.
  - split; [reflexivity |]. split; [reflexivity |]. split; [vm_compute; discriminate |]. split.
    + exists (bs hash_1), [bs "a"]. split; [reflexivity |]. split; [vm_compute; intuition discriminate |]. split; [| reflexivity].
      apply CodecP.decode_spec; [bytes_in_range | vm_compute; reflexivity].
    + split; [vm_compute; reflexivity | reflexivity].
  - right. split; [| left; apply OrdP.bytes_cmp_lex; vm_compute; reflexivity]. intros L. apply OrdP.bytes_cmp_lex in L. vm_compute in L. discriminate.
Qed.

Definition RfcAccepts (Q : list RR -> Prop) : Prop := forall e inp, Forall Held inp -> SortsNeeds e -> (forall s, In (RR_RRSig s) inp -> ~ EmptyMaxLabels inp s) ->
  TwoParams e inp -> Q inp -> Acceptable e inp -> RfcDenials e inp -> exists fuel v, verify_rr_stream e false fuel inp = Ok v.
Lemma last_nsec_refuted : ~ RfcAccepts (fun inp => forall n, ~ In (RR_NSec3 n) inp).
Proof.
  intros H. destruct last_nsec_good as [A D]. apply (turned_down _ _ _ last_nsec_rejected). apply H; [exact last_nsec_held | exact toy_sorts | apply not_max; vm_compute; reflexivity | apply no_nsec3; vm_compute; reflexivity | | exact A | exact D].
  intros n Hn. unfold w_last_nsec, w_root, w_zone in Hn. cbn [app In] in Hn. repeat match goal with H : _ \/ _ |- _ => destruct H as [H | H] end; try discriminate; contradiction.
Qed.
Lemma last_nsec3_refuted : ~ RfcAccepts (fun inp => forall n, ~ In (RR_NSec n) inp).
Proof.
  intros H. destruct last_nsec3_good as [A D]. apply (turned_down _ _ _ last_nsec3_rejected). apply H; [exact last_nsec3_held | exact n3_sorts | apply not_max; vm_compute; reflexivity | | | exact A | exact D].
  - intros z nc ty _. exists (0, [171]), (0, [171]). intros n pre (z' & s & _ & _ & _ & Hn) _ _ _. apply in_rrset in Hn as [Hn _]. unfold w_last_nsec3, w_root, w_zone in Hn. cbn [app In] in Hn. repeat match goal with H : _ \/ _ |- _ => destruct H as [H | H] end; try discriminate; try contradiction.
    injection Hn as <-. left. reflexivity.
  - intros n Hn. unfold w_last_nsec3, w_root, w_zone in Hn. cbn [app In] in Hn. repeat match goal with H : _ \/ _ |- _ => destruct H as [H | H] end; try discriminate; contradiction.
Qed.
(** The wildcard answer of OrderW, denied by an inner NSEC. *)
Lemma o_wild_inner : InnerDenials echo_env o_wild.
Proof.
  destruct (zone_loop echo_env false o_wild 10 vinit) as [st| | |] eqn:EZ; [| vm_compute in EZ; discriminate ..].
  assert (R : v_res st = [w_a "x.a."; o_nsec] /\ v_needs st = [(bs "x.a.", bs "a.", 1)] /\ v_inception st < v_expiry st).
  { vm_compute in EZ. injection EZ as <-. split; [reflexivity |]. split; [reflexivity |]. vm_compute. reflexivity. }
  destruct R as (R1 & R2 & R3). destruct (xa_state _ _ st _ o_wild_held o_wild_max EZ R1 R2 R3) as (_ & P & D).
  intros z nc ty N. destruct (D z nc ty N) as [-> ->]. left. eexists _, (bs "c."). split; [exact P |]. split; [reflexivity |].
  split; cbn [ns_name ns_next]; (apply nsec_ord_names; [vm_compute; reflexivity .. |]; vm_compute; reflexivity).
Qed.
