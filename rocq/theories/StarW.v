(** Witnesses for Prop_Star. *)
From Verif Require Import Base BaseP NameM WireM RRM SerM ValM NameSpec RecSpec ValSpec ValP ValP2 ValP3 SignedP ValW ValW2 OrderW AcceptSpec AcceptP AcceptP2 AcceptP3 AcceptP4 AcceptW StarSpec.
From Coq Require Import String.
Local Open Scope N_scope.

(** The address of *.a., signed by a.; the same with the NSEC record of *.a. *)
Definition s_bare : list RR := o_zones ++ [w_a "*.a."; o_sig "*.a." 1 1 "a." [w_a "*.a."]].
Definition s_nsec : RR := w_nsec "*.a." "z.a." [1; 46; 47].
Definition s_own : list RR := s_bare ++ [s_nsec; o_sig "*.a." 47 1 "a." [s_nsec]].
Ltac s_held_all := unfold s_bare, o_zones, s_nsec; cbn [app]; repeat (apply Forall_cons; [o_held |]); apply Forall_nil.
Lemma s_bare_held : Forall Held s_bare.
Proof. s_held_all. Qed.
Lemma s_own_held : Forall Held s_own.
Proof. unfold s_own. s_held_all. Qed.
Lemma s_bare_rejected : echo s_bare = Err Invalid.
Proof. vm_compute. reflexivity. Qed.
Lemma s_own_accepted : exists v, echo s_own = Ok v /\ vr_rrs v = [w_a "*.a."].
Proof. eexists. split; vm_compute; reflexivity. Qed.

Lemma labels_star : LabelsOf (bs "*.a.") [[42]; [97]].
Proof. split; [reflexivity |]. split; [repeat constructor; vm_compute; discriminate | discriminate]. Qed.
Lemma s_bare_acceptable : Acceptable echo_env s_bare.
Proof.
  destruct (zone_loop echo_env false s_bare 10 vinit) as [st| | |] eqn:E; [| vm_compute in E; discriminate ..].
  eapply acceptable_by; [exact s_bare_held | apply not_max; vm_compute; reflexivity | exact E | |].
  - vm_compute in E. injection E as <-. discriminate.
  - vm_compute in E. injection E as <-. vm_compute. reflexivity.
Qed.
(** In both, whatever is not at a wildcard has its full number of labels. *)
Lemma s_sigs s : In (RR_RRSig s) s_own -> rs_ty s <> 43 -> rs_ty s <> 47 ->
  (rs_name s = bs "*.a." /\ rs_labels s = 1) \/ exists ls, LabelsOf (rs_name s) ls /\ N.of_nat (List.length ls) = rs_labels s.
Proof.
  intros G N43 N47. unfold s_own, s_bare, o_zones in G. cbn [app In] in G.
  repeat match goal with H : _ \/ _ |- _ => destruct H as [H | H] end; try discriminate; try contradiction; injection G as <-; try (exfalso; apply N43; reflexivity); try (exfalso; apply N47; reflexivity).
  - right. exists []. split; [| reflexivity]. split; [reflexivity |]. split; [constructor | discriminate].
  - right. exists [[97]]. split; [| reflexivity]. split; [reflexivity |]. split; [repeat constructor; vm_compute; discriminate | discriminate].
  - left. split; reflexivity.
Qed.
Lemma s_denied e inp : incl inp s_own -> ExpansionsDenied e inp.
Proof.
  intros I z s pre l suf _ ((G & _) & _) N43 N47 L K W. exfalso. destruct (s_sigs s (I _ G) N43 N47) as [(E & F) | (ls & L1 & L2)].
  - apply W. exists [[97]]. split; [| rewrite F; reflexivity]. rewrite E. exact labels_star.
  - rewrite <- (labelsof_inj _ _ _ L L1), app_length in L2. cbn [List.length] in L2. lia.
Qed.
Lemma s_one e inp : incl inp s_own -> OneZone e inp.
Proof.
  intros I. assert (X : forall s, In (RR_RRSig s) inp -> rs_ty s <> 43 -> rs_ty s <> 47 -> rs_key_name s = bs "a." \/ exists ls, LabelsOf (rs_name s) ls /\ N.of_nat (List.length ls) = rs_labels s).
  { intros s G N43 N47. apply I in G. destruct (s_sigs s G N43 N47) as [(E & F) | X]; [| auto]. left.
    unfold s_own, s_bare, o_zones in G. cbn [app In] in G.
    repeat match goal with H : _ \/ _ |- _ => destruct H as [H | H] end; try discriminate; try contradiction; injection G as <-; try reflexivity; discriminate. }
  exact (signers inp (bs "a.") X e).
Qed.
Lemma s_bare_incl : incl s_bare s_own.
Proof. apply incl_appl, incl_refl. Qed.
Lemma star_refuted : ~ (forall e inp, Forall Held inp -> SortsNeeds e -> (forall s, In (RR_RRSig s) inp -> ~ EmptyMaxLabels inp s) -> TwoParams e inp -> OneZone e inp ->
  Acceptable e inp -> ExpansionsDenied e inp -> exists fuel v, verify_rr_stream e false fuel inp = Ok v).
Proof.
  intros H. apply (turned_down echo_env s_bare 10); [exact s_bare_rejected |].
  apply H; [exact s_bare_held | exact echo_sorts | apply not_max; vm_compute; reflexivity | apply no_nsec3; vm_compute; reflexivity | apply s_one, s_bare_incl | exact s_bare_acceptable | apply s_denied, s_bare_incl].
Qed.

Lemma s_own_max s : In (RR_RRSig s) s_own -> ~ EmptyMaxLabels s_own s.
Proof. apply not_max. vm_compute. reflexivity. Qed.
Lemma s_own_two : TwoParams echo_env s_own.
Proof. apply no_nsec3. vm_compute. reflexivity. Qed.
Lemma s_own_good : Acceptable echo_env s_own /\ ExpansionsDenied echo_env s_own /\ OwnNsec echo_env s_own.
Proof.
  destruct (zone_loop echo_env false s_own 10 vinit) as [st| | |] eqn:E; [| vm_compute in E; discriminate ..].
  assert (R : v_res st = [w_a "*.a."; s_nsec] /\ v_inception st < v_expiry st) by (vm_compute in E; injection E as <-; split; [reflexivity | vm_compute; reflexivity]).
  destruct R as (R1 & R2). pose proof (loop_complete _ _ _ _ E) as C. split; [| split].
  - eapply acceptable_by; [exact s_own_held | exact s_own_max | exact E | rewrite R1; discriminate | exact R2].
  - apply s_denied, incl_refl.
  - intros z s _ ((G & _) & _) N43 N47 (suf & L & K). destruct (s_sigs s G N43 N47) as [(En & _) | (ls & L1 & L2)].
    + eexists. split; [apply proven_iff; [exact s_own_held |]; apply (co_res _ _ _ C); rewrite R1; right; left; reflexivity |].
      split; [symmetry; exact En |]. apply nsec_ord_names; vm_compute; reflexivity.
    + exfalso. rewrite <- (labelsof_inj _ _ _ L L1) in L2. cbn [List.length] in L2. lia.
Qed.

Lemma echo_signed inp z s k : Forall Held inp -> In (RR_RRSig s) inp -> rs_key_name s = z -> In (RR_DnsKey k) (rrset inp z 48) ->
  verify_rrsig echo_env false s [k] (rrset inp (rs_name s) (rs_ty s)) = Ok tt -> SignedByZone echo_env inp (fun _ => True) z s.
Proof.
  intros Hh Hs Hz Hk Hv. split; auto. split; auto. split; auto.
  apply verify_rrsig_sigby in Hv as (k' & [<-|[]] & K).
  - exists k. auto.
  - eapply held_rrsig; eauto.
  - apply held_rrset; auto.
  - constructor; [|constructor]. apply in_rrset in Hk as (Hk & _). rewrite Forall_forall in Hh. apply Hh in Hk. apply Hk.
Qed.
Definition s_sig : rrsig := o_rrsig "*.a." 1 1 "a." [w_a "*.a."].
Lemma s_signed : Reached echo_env s_own (bs "a.") /\ SignedByZone echo_env s_own (fun _ => True) (bs "a.") s_sig /\
  In (w_a "*.a.") (rrset s_own (rs_name s_sig) (rs_ty s_sig)) /\ AtWildcard s_sig.
Proof.
  split; [| split; [| split]].
  - change (bs "a.") with (rs_name (o_rrsig "a." 43 1 "." [w_ds "a."])). eapply Re_child; [constructor | | reflexivity].
    eapply (echo_signed _ _ _ (key_of ".")); [exact s_own_held | in_inp | reflexivity | apply in_rrset; split; [in_inp | split; reflexivity] | vm_compute; reflexivity].
  - eapply (echo_signed _ _ _ (key_of "a.")); [exact s_own_held | in_inp | reflexivity | apply in_rrset; split; [in_inp | split; reflexivity] | vm_compute; reflexivity].
  - apply in_rrset. split; [in_inp | split; reflexivity].
  - exists [[97]]. split; [exact labels_star | reflexivity].
Qed.
