(** The validator's own terms and those of the specification (for C60). *)
From Verif Require Import Base BaseP NameM WireM RRM Base32M ValM NameSpec NameP RecSpec CodecSpec CodecP ValSpec ValP ValP2 ValP3 ValP4 ValP5 DupP AcceptSpec AcceptP.
From Coq Require Import Permutation Arith.
Local Open Scope N_scope.

(** ** Signatures *)
Lemma chosen_true s keys k : Chosen (fun _ => True) s keys k <-> FirstKey s keys k.
Proof.
  split; intros (pre & post & H1 & H2 & H3).
  - exists pre, post. split; [exact H1 |]. split; [| apply H3]. eapply Forall_impl; [| exact H2]. cbn. intros a Ha K. apply Ha. auto.
  - exists pre, post. split; [exact H1 |]. split; [| auto]. eapply Forall_impl; [| exact H2]. cbn. intros a Ha [_ K]. auto.
Qed.

Lemma chosen_filter (P : dnskey -> Prop) f s keys k : (forall x, In x keys -> (f x = true <-> P x)) ->
  (FirstKey s (filter f keys) k <-> Chosen P s keys k).
Proof.
  revert k. induction keys as [| x keys IH]; intros k Hf.
  - split; intros (pre & post & H & _); destruct pre; discriminate.
  - assert (IH' := IH k (fun y Hy => Hf y (or_intror Hy))). assert (Hx := Hf x (or_introl eq_refl)). cbn [filter].
    destruct (f x) eqn:E.
    + assert (PX : P x) by (apply Hx; reflexivity). split.
      * intros (pre & post & H1 & H2 & H3). destruct pre as [| y pre]; cbn [app] in H1.
        -- assert (x = k) by congruence. subst k. exists [], keys. repeat split; auto; apply H3.
        -- assert (y = x) by congruence. subst y. inversion H2 as [| ? ? H4 H5]; subst.
           destruct (proj1 IH') as (p' & q' & A1 & A2 & A3); [exists pre, post; split; [congruence | auto] |].
           exists (x :: p'), q'. split; [cbn [app]; congruence |]. split; [constructor; [tauto | exact A2] | exact A3].
      * intros (pre & post & H1 & H2 & H3). destruct pre as [| y pre]; cbn [app] in H1.
        -- assert (x = k) by congruence. subst k. exists [], (filter f keys). split; [reflexivity |]. split; [constructor | apply H3].
        -- assert (y = x) by congruence. subst y. inversion H2 as [| ? ? H4 H5]; subst.
           destruct (proj2 IH') as (p' & q' & A1 & A2 & A3); [exists pre, post; split; [congruence | auto] |].
           exists (x :: p'), q'. split; [cbn [app]; congruence |]. split; [constructor; [tauto | exact A2] | exact A3].
    + assert (PX : ~ P x) by (rewrite <- Hx; discriminate). rewrite IH'. split.
      * intros (pre & post & H1 & H2 & H3). exists (x :: pre), post. split; [cbn [app]; congruence |]. split; [constructor; [tauto | exact H2] | exact H3].
      * intros (pre & post & H1 & H2 & H3). destruct pre as [| y pre]; cbn [app] in H1.
        -- assert (x = k) by congruence. subst k. tauto.
        -- assert (y = x) by congruence. subst y. inversion H2; subst. exists pre, post. split; [congruence | auto].
Qed.

Lemma unsup_spec e s keys rs : held_sig s -> Forall Held rs ->
  (verify_rrsig e false s keys rs = Err UnsupportedAlgorithm <->
   Forall (fun r => rr_ty r = rs_ty s) rs /\ ~ supported_alg (rs_alg s) /\
   exists k msg, FirstKey s keys k /\ SignedData s (sort_by rr_cmp rs) msg).
Proof.
  intros Hs Hr. split.
  - intros H. pose proof (ValP5.verify_rrsig_unsupported _ _ _ _ _ H) as [H1 _]. revert H. unfold verify_rrsig.
    destruct (existsb (fun r => negb (rs_ty s =? rr_ty r)) rs) eqn:E; [discriminate |]. apply types_match in E.
    rewrite verify_with_keys_spec. intros [[_ H] | (k & K & H)]; [discriminate |]. split; [exact E |]. split; [exact H1 |].
    assert (Hr' : Forall Held (sort_by rr_cmp rs)) by (rewrite <- (sort_perm rr_cmp rs); auto).
    destruct (signed_records false s (sort_by rr_cmp rs)) as [m| er| |] eqn:M; cbn [obind] in H; try discriminate.
    + apply signed_records_spec in M as (ps & M & ->); auto. exists k, (rrsig_rdata s ++ concat ps). split; [exact K |]. exists ps. auto.
    + exfalso. apply signed_records_err in M. congruence.
  - intros (H1 & H2 & k & msg & H3 & H4). eapply verify_rrsig_unsupported_conv; eauto.
Qed.

Section T.
  Variables (e : env) (inp : list RR).
  Hypothesis Hheld : Forall Held inp.

  Lemma keys_at_eq z : keys_at inp z = zone_dnskeys inp z.
  Proof.
    unfold keys_at, zone_dnskeys. clear Hheld. induction inp as [| r l IH]; [reflexivity |]. cbn [flat_map]. rewrite filter_app, IH. f_equal.
    destruct r as [a|a|a|a|a|a|a|k|a|a|a|a]; try reflexivity. cbn [as_dnskey filter]. destruct (list_eq_dec N.eq_dec (dk_name k) z) as [<- | NE].
    - rewrite bytes_eqb_refl. reflexivity.
    - apply bytes_eqb_neq in NE. rewrite NE. reflexivity.
  Qed.
  Lemma sigs_over_eq z : sigs_over inp z 48 = dnskey_rrsigs inp z.
  Proof.
    unfold sigs_over, dnskey_rrsigs, rrsigs. clear Hheld. induction inp as [| r l IH]; [reflexivity |]. cbn [flat_map]. rewrite filter_app, IH. f_equal.
    destruct r as [a|a|a|a|a|a|a|k|a|s|a|a]; try reflexivity. cbn [as_rrsig filter]. destruct (list_eq_dec N.eq_dec (rs_name s) z) as [<- | NE].
    - rewrite bytes_eqb_refl. cbn [andb]. destruct (rs_ty s =? 48) eqn:E; unfold T_DNSKEY; rewrite E; reflexivity.
    - apply bytes_eqb_neq in NE. rewrite NE. reflexivity.
  Qed.
  Lemma dss_of_eq z : dss_of inp z = delegations inp z.
  Proof.
    unfold dss_of, delegations. destruct (list_eq_dec N.eq_dec z [46]) as [-> | NE].
    - change (bytes_eqb [46] root_name) with true. cbv iota. apply root_hints_anchors.
    - destruct (bytes_eqb z root_name) eqn:E; [apply bytes_eqb_eq in E; contradiction |]. reflexivity.
  Qed.

  Lemma ok_valid z s : In (RR_RRSig s) inp -> (ok e inp z s <-> ValidSig e (fun _ => True) (keys_at inp z) s (rrset inp (rs_name s) (rs_ty s))).
  Proof.
    intros Hs. unfold ok, ValidSig. rewrite covered_rrset, verify_rrsig_spec; [| eapply held_rrsig; eauto | apply held_rrset; exact Hheld | apply held_keys; exact Hheld].
    rewrite keys_at_eq. split; intros (H1 & k & msg & H2 & H3); (split; [exact H1 |]; exists k, msg; split; [apply chosen_true; exact H2 | exact H3]).
  Qed.
  Lemma unsup_unknown z s : In (RR_RRSig s) inp -> (unsup e inp z s <-> UnknownSig (fun _ => True) (keys_at inp z) s (rrset inp (rs_name s) (rs_ty s))).
  Proof.
    intros Hs. unfold unsup, UnknownSig. rewrite covered_rrset, unsup_spec; [| eapply held_rrsig; eauto | apply held_rrset; exact Hheld].
    rewrite keys_at_eq. split; intros (H1 & H0 & k & msg & H2 & H3); (split; [exact H1 |]; split; [exact H0 |]; exists k, msg; split; [apply chosen_true; exact H2 | exact H3]).
  Qed.

  Lemma held_flags z : Forall (fun k => is_u16 (dk_flags k)) (zone_dnskeys inp z).
  Proof.
    rewrite Forall_forall. intros k Hk. apply in_zone_keys, in_rrset in Hk as [Hk _]. rewrite Forall_forall in Hheld.
    apply Hheld in Hk. unfold Held in Hk. cbn [typed_rr] in Hk. tauto.
  Qed.

  Lemma chosen_validated dss z s k : FirstKey s (validated_dnskeys e dss (zone_dnskeys inp z)) k <-> Chosen (DelegatedKey e dss) s (keys_at inp z) k.
  Proof.
    rewrite keys_at_eq. unfold validated_dnskeys. apply chosen_filter. intros x Hx. apply ds_matches_spec.
    pose proof (held_flags z) as H. rewrite Forall_forall in H. apply H. exact Hx.
  Qed.

  Lemma dnskey_sigs_spec dss z sigs : (forall s, In s sigs -> In (RR_RRSig s) inp) -> forall b s,
    verify_dnskey_sigs e false sigs (validated_dnskeys e dss (zone_dnskeys inp z)) (zone_dnskeys inp z) b = Ok s <->
    exists pre post, sigs = pre ++ s :: post /\
      Forall (fun x => UnknownSig (DelegatedKey e dss) (keys_at inp z) x (rrset inp z 48)) pre /\
      ValidSig e (DelegatedKey e dss) (keys_at inp z) s (rrset inp z 48).
  Proof.
    induction sigs as [| x sigs IH]; intros Hin b s; cbn [verify_dnskey_sigs].
    - split; [discriminate |]. intros (pre & post & H & _). destruct pre; discriminate.
    - assert (HX : held_sig x) by (eapply held_rrsig; [exact Hheld | apply Hin; left; reflexivity]).
      assert (HR : Forall Held (rrset inp z 48)) by (apply held_rrset; exact Hheld).
      assert (HK : Forall (fun k => is_bytes (dk_pubkey k)) (validated_dnskeys e dss (zone_dnskeys inp z))).
      { rewrite Forall_forall. intros k Hk. unfold validated_dnskeys in Hk. apply filter_In in Hk as [Hk _]. pose proof (held_keys inp z Hheld) as G. rewrite Forall_forall in G. apply G. exact Hk. }
      assert (V : verify_rrsig e false x (validated_dnskeys e dss (zone_dnskeys inp z)) (rrset inp z 48) = Ok tt <-> ValidSig e (DelegatedKey e dss) (keys_at inp z) x (rrset inp z 48)).
      { rewrite verify_rrsig_spec by assumption. unfold ValidSig. split; intros (H1 & k & msg & H2 & H3); (split; [exact H1 |]; exists k, msg; split; [apply chosen_validated; exact H2 | exact H3]). }
      assert (U : verify_rrsig e false x (validated_dnskeys e dss (zone_dnskeys inp z)) (rrset inp z 48) = Err UnsupportedAlgorithm <-> UnknownSig (DelegatedKey e dss) (keys_at inp z) x (rrset inp z 48)).
      { rewrite unsup_spec by assumption. unfold UnknownSig. split; intros (H1 & H0 & k & msg & H2 & H3); (split; [exact H1 |]; split; [exact H0 |]; exists k, msg; split; [apply chosen_validated; exact H2 | exact H3]). }
      rewrite zone_keys_rrset. set (o := verify_rrsig e false x (validated_dnskeys e dss (zone_dnskeys inp z)) (rrset inp z 48)) in *. clearbody o.
      assert (CONS : forall pre post, x :: sigs = pre ++ s :: post -> (pre = [] /\ s = x) \/ exists pre', pre = x :: pre' /\ sigs = pre' ++ s :: post).
      { intros pre post H. destruct pre as [| y pre]; cbn [app] in H; [left; split; [reflexivity | congruence] | right; exists pre; split; congruence]. }
      destruct o as [[] | [] | |].
      + split.
        * intros H. assert (x = s) by congruence. subst s. exists [], sigs. split; [reflexivity |]. split; [constructor | apply V; reflexivity].
        * intros (pre & post & H1 & H2 & H3). destruct (CONS pre post H1) as [[-> ->] | (pre' & -> & _)]; [reflexivity |].
          inversion H2 as [| ? ? H4 _]; subst. apply U in H4. discriminate.
      + rewrite IH by (intros y Hy; apply Hin; right; exact Hy). split.
        * intros (pre & post & -> & H2 & H3). exists (x :: pre), post. split; [reflexivity |]. split; [constructor; [apply U; reflexivity | exact H2] | exact H3].
        * intros (pre & post & H1 & H2 & H3). destruct (CONS pre post H1) as [[-> ->] | (pre' & -> & H4)]; [apply V in H3; discriminate |].
          inversion H2; subst. exists pre', post. auto.
      + split; [discriminate |]. intros (pre & post & H1 & H2 & H3). destruct (CONS pre post H1) as [[-> ->] | (pre' & -> & H4)]; [apply V in H3; discriminate |].
        inversion H2 as [| ? ? H5 _]; subst. apply U in H5. discriminate.
      + split; [discriminate |]. intros (pre & post & H1 & H2 & H3). destruct (CONS pre post H1) as [[-> ->] | (pre' & -> & H4)]; [apply V in H3; discriminate |].
        inversion H2 as [| ? ? H5 _]; subst. apply U in H5. discriminate.
      + split; [discriminate |]. intros (pre & post & H1 & H2 & H3). destruct (CONS pre post H1) as [[-> ->] | (pre' & -> & H4)]; [apply V in H3; discriminate |].
        inversion H2 as [| ? ? H5 _]; subst. apply U in H5. discriminate.
  Qed.

  Lemma keysig_spec z s : keysig e inp z s <-> KeySig e inp z s.
  Proof.
    unfold keysig, KeySig. rewrite dss_of_eq, sigs_over_eq. set (dss := delegations inp z). clearbody dss.
    rewrite <- (dnskey_sigs_spec dss z (dnskey_rrsigs inp z)) with (b := false); [| intros x Hx; apply in_dnskey_rrsigs in Hx; apply Hx].
    unfold verify_dnskeys. split.
    - destruct (is_nil dss); [discriminate |]. destruct (negb _); [discriminate |]. auto.
    - intros H. assert (D : exists k, DelegatedKey e dss k).
      { apply dnskey_sigs_spec in H; [| intros x Hx; apply in_dnskey_rrsigs in Hx; apply Hx]. destruct H as (_ & _ & _ & _ & _ & k & _ & (? & ? & _ & _ & H & _) & _). eauto. }
      destruct D as (k & d & D1 & _ & _ & D2). destruct (is_nil dss) eqn:E; [destruct dss; [destruct D1 | discriminate] |].
      replace (existsb _ dss) with true; [exact H |]. symmetry. apply existsb_exists. exists d. split; [exact D1 |].
      destruct D2 as [[-> _] | [-> _]]; reflexivity.
  Qed.

  Lemma good_ok z s : (In s (zone_rrsigs inp z) /\ ok e inp z s) <-> GoodSig e inp z s.
  Proof.
    unfold GoodSig, ZoneSig. rewrite in_zone_rrsigs. split; intros [H1 H2]; split; auto; apply ok_valid; auto; apply H1.
  Qed.
  Lemma passed_unsup z s : (In s (zone_rrsigs inp z) /\ unsup e inp z s) <-> PassedSig inp z s.
  Proof.
    unfold PassedSig, ZoneSig. rewrite in_zone_rrsigs. split; intros [H1 H2]; split; auto; apply unsup_unknown; auto; apply H1.
  Qed.
  Lemma reach_visited z : mreach e inp z <-> Visited e inp z.
  Proof.
    split; induction 1 as [| z s H IH]; try constructor.
    - apply (Vi_child _ _ z); auto. apply good_ok. auto.
    - match goal with H1 : GoodSig _ _ _ _ |- _ => apply good_ok in H1 as [A B] end. apply (mr_child _ _ z); auto.
  Qed.

  (** ** Wildcards *)
  Hypothesis Hmax : forall s, In (RR_RRSig s) inp -> ~ EmptyMaxLabels inp s.

  Lemma need_cases z s : GoodSig e inp z s -> rs_ty s <> 43 -> rs_ty s <> 46 ->
    exists ls, LabelsOf (rs_name s) ls /\ (length ls <= 255)%nat /\
      ((rs_ty s = 47 \/ rs_labels s = N.of_nat (length ls)) /\ wildcard_need false s = Ok [] \/
       rs_ty s <> 47 /\ rs_ty s = 50 /\ rs_labels s <> N.of_nat (length ls) /\ wildcard_need false s = Err Invalid \/
       rs_ty s <> 47 /\ rs_ty s <> 50 /\ N.of_nat (length ls) < rs_labels s /\ wildcard_need false s = Err Invalid \/
       rs_ty s <> 47 /\ rs_ty s <> 50 /\ rs_labels s < N.of_nat (length ls) /\
         exists pre l suf, ls = pre ++ l :: suf /\ N.of_nat (length suf) = rs_labels s /\ wildcard_need false s = Ok [(dotted (l :: suf), rs_key_name s, rs_ty s)]).
  Proof.
    intros [(Z1 & Z2 & Z3) (T & k & msg & _ & (ps & SD & _) & _)] N43 N46.
    assert (HS := held_rrsig _ _ Hheld Z1). assert (HV := held_name _ HS). cbn [rr_name] in HV.
    destruct (valid_labels _ HV) as (ls & L1 & L2). exists ls. split; [exact L1 |]. split; [exact L2 |].
    assert (LB : rs_labels s < 256) by (unfold held_sig, Held in HS; cbn [typed_rr] in HS; apply HS).
    unfold wildcard_need. rewrite (labels_of _ _ L1 L2). destruct (rs_ty s =? T_NSEC) eqn:E47.
    { apply N.eqb_eq in E47. left. rewrite andb_false_r. split; [left; exact E47 | reflexivity]. }
    apply N.eqb_neq in E47. change T_NSEC with 47 in E47. cbn [negb]. rewrite andb_true_r.
    destruct (rs_labels s =? N.of_nat (length ls)) eqn:EL; cbn [negb].
    { apply N.eqb_eq in EL. left. auto. }
    apply N.eqb_neq in EL. right. destruct (rs_ty s =? T_NSEC3) eqn:E50.
    { apply N.eqb_eq in E50. left. auto. }
    apply N.eqb_neq in E50. change T_NSEC3 with 50 in E50. right. cbn [andb].
    destruct (N.eq_dec (rs_labels s) 255) as [E255 | NE255].
    { exfalso. destruct (rrset inp (rs_name s) (rs_ty s)) as [| r rs] eqn:RS.
      - apply (Hmax s Z1). unfold EmptyMaxLabels. auto 10.
      - assert (HI : In r (sort_by rr_cmp (r :: rs))) by (eapply Permutation_in; [apply sort_perm | left; reflexivity]).
        assert (HO : exists o, SignedOwner s r o).
        { clear - SD HI. induction SD as [| x y l l' Hxy _ IH]; [contradiction |]. destruct HI as [-> | HI]; auto. destruct Hxy as (o & Ho & _). eauto. }
        assert (HR : In r (rrset inp (rs_name s) (rs_ty s))) by (rewrite RS; left; reflexivity). apply in_rrset in HR as (_ & HR & HT).
        destruct HO as (o & HO). inversion HO as [ls' A1 A2 | A1 | pre suf A1 A2 A3 A4]; subst o.
        + rewrite HR in A1. rewrite (labelsof_inj _ _ _ A1 L1) in A2. congruence.
        + congruence.
        + rewrite HR in A2. rewrite <- (labelsof_inj _ _ _ A2 L1) in L2. rewrite app_length in L2. destruct pre; [congruence |]. cbn [length] in L2. lia. }
    assert (E1 : as_u8 (rs_labels s + 1) = rs_labels s + 1) by (apply as_u8_small; lia). rewrite E1, (trailing_of _ _ _ L1 L2).
    destruct (N.of_nat (length ls) <? rs_labels s + 1) eqn:EB.
    - apply N.ltb_lt in EB. left. split; [exact E47 |]. split; [exact E50 |]. split; [lia | reflexivity].
    - apply N.ltb_ge in EB. right. split; [exact E47 |]. split; [exact E50 |]. split; [lia |].
      assert (LS : ls = firstn (length ls - N.to_nat (rs_labels s + 1)) ls ++ skipn (length ls - N.to_nat (rs_labels s + 1)) ls) by (symmetry; apply firstn_skipn).
      destruct (skipn (length ls - N.to_nat (rs_labels s + 1)) ls) as [| l suf] eqn:SK.
      + apply (f_equal (@length _)) in SK. rewrite skipn_length in SK. cbn [length] in SK. lia.
      + exists (firstn (length ls - N.to_nat (rs_labels s + 1)) ls), l, suf. split; [exact LS |]. split; [| reflexivity].
        apply (f_equal (@length _)) in SK. rewrite skipn_length in SK. cbn [length] in SK. lia.
  Qed.

  Lemma fits_spec z s : GoodSig e inp z s -> (Fits s <-> rs_ty s <> 46 /\ (rs_ty s = 43 \/ exists nd, wildcard_need false s = Ok nd)).
  Proof.
    intros G. unfold Fits. split; intros [H1 H2]; (split; [exact H1 |]).
    - destruct H2 as [H2 | H2]; [left; exact H2 |]. destruct (N.eq_dec (rs_ty s) 43) as [E | N43]; [left; exact E | right].
      destruct (need_cases z s G N43 H1) as (ls & L1 & _ & [[_ ->] | [(A & B & C & D) | [(A & B & C & D) | (A & B & C & pre & l & suf & D1 & D2 & ->)]]]); eauto; exfalso.
      + destruct H2 as [H2 | (ls' & L3 & [H2 | [H2 _]])]; try congruence. rewrite (labelsof_inj _ _ _ L3 L1) in H2. congruence.
      + destruct H2 as [H2 | (ls' & L3 & [H2 | [_ H2]])]; try congruence; rewrite (labelsof_inj _ _ _ L3 L1) in H2; lia.
    - destruct H2 as [H2 | (nd & H2)]; [left; exact H2 |]. destruct (N.eq_dec (rs_ty s) 43) as [E | N43]; [left; exact E | right].
      destruct (need_cases z s G N43 H1) as (ls & L1 & _ & [[[A | A] _] | [(A & B & C & D) | [(A & B & C & D) | (A & B & C & pre & l & suf & D1 & D2 & D3)]]]); try congruence; [left; exact A | right; exists ls; auto .. ].
  Qed.

  Lemma needs_spec z s nc zz ty : GoodSig e inp z s -> rs_ty s <> 43 -> rs_ty s <> 46 -> Fits s ->
    (wildcard_need false s = Ok [(nc, zz, ty)] <->
     rs_ty s <> 47 /\ zz = z /\ ty = rs_ty s /\ exists pre l suf, LabelsOf (rs_name s) (pre ++ l :: suf) /\ N.of_nat (length suf) = rs_labels s /\ nc = dotted (l :: suf)).
  Proof.
    intros G N43 N46 F. assert (KN : rs_key_name s = z) by apply G.
    assert (FW : exists nd, wildcard_need false s = Ok nd) by (apply (fits_spec z s G) in F as [_ [F | F]]; [contradiction | exact F]).
    destruct (need_cases z s G N43 N46) as (ls & L1 & L2 & [[A W] | [(A & B & C & D) | [(A & B & C & D) | (A & B & C & pre & l & suf & D1 & D2 & D3)]]]); try (destruct FW as (nd & FW); congruence).
    - rewrite W. split; [discriminate |]. intros (N47 & _ & _ & pre & l & suf & H1 & H2 & _). destruct A as [A | A]; [contradiction |].
      rewrite <- (labelsof_inj _ _ _ H1 L1), app_length in A. cbn [length] in A. lia.
    - rewrite D3, KN. subst ls. split.
      + intros H. assert (nc = dotted (l :: suf) /\ zz = z /\ ty = rs_ty s) as (-> & -> & ->) by (split; [| split]; congruence).
        split; [exact A |]. split; [reflexivity |]. split; [reflexivity |]. exists pre, l, suf. auto.
      + intros (_ & -> & -> & pre' & l' & suf' & H1 & H2 & ->). pose proof (labelsof_inj _ _ _ H1 L1) as E.
        assert (LE : length pre' = length pre). { apply (f_equal (@length _)) in E. rewrite !app_length in E. cbn [length] in E. lia. }
        assert (E2 : l' :: suf' = l :: suf).
        { apply (f_equal (skipn (length pre))) in E. rewrite <- LE in E at 1. rewrite !skipn_app, !skipn_all, LE, !Nat.sub_diag in E. exact E. }
        rewrite E2. reflexivity.
  Qed.
End T.
