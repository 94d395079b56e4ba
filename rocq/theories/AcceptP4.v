(** Exactly which streams are accepted, and with which result (C60). *)
From Verif Require Import Base BaseP NameM WireM RRM Base32M ValM NameSpec NameP RecSpec CodecSpec CodecP OrdP ValSpec ValP ValP2 ValP3 ValP4 ValP5 DupP AcceptSpec AcceptP AcceptP2 AcceptP3.
From Coq Require Import Permutation Arith.
Local Open Scope N_scope.

Lemma resolve_time_small t : t < 2 ^ 32 -> resolve_time t < 2 ^ 34.
Proof. intros H. unfold resolve_time. destruct (_ <? _); lia. Qed.

Lemma max_exists (f : rrsig -> N) (L : list rrsig) v : L <> [] -> (forall b, v < b <-> 0 < b /\ forall s, In s L -> f s < b) -> is_max v (map f L).
Proof.
  intros NE H. split.
  - destruct (in_dec N.eq_dec v (map f L)) as [G | G]; [exact G | exfalso].
    assert (U : forall s, In s L -> f s <= v) by (intros s Hs; destruct (proj1 (H (v + 1))) as [_ B]; [lia | specialize (B s Hs); lia]).
    destruct (N.eq_dec v 0) as [-> | NZ].
    + destruct L as [| s L]; [congruence |]. apply G. cbn [map]. left. specialize (U s (or_introl eq_refl)). lia.
    + assert (v < v); [| lia]. apply H. split; [lia |]. intros s Hs. specialize (U s Hs).
      assert (f s <> v) by (intros E; apply G; rewrite <- E; apply in_map; exact Hs). lia.
  - rewrite Forall_forall. intros x Hx. apply in_map_iff in Hx as (s & <- & Hs). destruct (proj1 (H (v + 1))) as [_ B]; [lia | specialize (B s Hs); lia].
Qed.
Lemma min_exists (f : rrsig -> N) (L : list rrsig) top v : L <> [] -> (forall s, In s L -> f s <= top) -> (forall b, b < v <-> b < top /\ forall s, In s L -> b < f s) -> is_min v (map f L).
Proof.
  intros NE HT H.
  assert (U : forall s, In s L -> v <= f s).
  { intros s Hs. destruct (N.le_gt_cases v (f s)) as [G | G]; [exact G |]. destruct (proj1 (H (f s)) G) as [_ B]. specialize (B s Hs). lia. }
  assert (VT : v <= top). { destruct (N.le_gt_cases v top) as [G | G]; [exact G |]. destruct (proj1 (H top) G) as [B _]. lia. }
  split.
  - destruct (in_dec N.eq_dec v (map f L)) as [G | G]; [exact G | exfalso].
    assert (v < v); [| lia]. apply H.
    assert (A : forall s, In s L -> v < f s).
    { intros s Hs. specialize (U s Hs). assert (f s <> v) by (intros E; apply G; rewrite <- E; apply in_map; exact Hs). lia. }
    split; [| exact A]. destruct L as [| s L]; [congruence |]. specialize (A s (or_introl eq_refl)). specialize (HT s (or_introl eq_refl)). lia.
  - rewrite Forall_forall. intros x Hx. apply in_map_iff in Hx as (s & <- & Hs). apply U. exact Hs.
Qed.

Section V.
  Variables (e : env) (inp : list RR).
  Hypothesis Hheld : Forall Held inp.
  Hypothesis Hmax : forall s, In (RR_RRSig s) inp -> ~ EmptyMaxLabels inp s.

  Lemma used_iff s : Used e inp s <-> exists z, mreach e inp z /\ (keysig e inp z s \/ (In s (zone_rrsigs inp z) /\ ok e inp z s)).
  Proof.
    unfold Used. split; intros (z & H1 & H2); exists z.
    - split; [apply reach_visited; assumption |]. destruct H2 as [H2 | H2]; [left; apply keysig_spec; assumption | right; apply good_ok; assumption].
    - split; [apply reach_visited; assumption |]. destruct H2 as [H2 | H2]; [left; apply keysig_spec; assumption | right; apply good_ok; assumption].
  Qed.
  Lemma proven_iff r : Proven e inp r <-> exists z s, mreach e inp z /\ In s (zone_rrsigs inp z) /\ ok e inp z s /\ rs_ty s <> 43 /\ In r (covered inp s).
  Proof.
    unfold Proven. split.
    - intros (z & s & H1 & H2 & H3 & H4). exists z, s. apply good_ok in H2 as [A B]; [| assumption]. split; [apply reach_visited; assumption |]. rewrite covered_rrset. auto.
    - intros (z & s & H1 & A & B & H3 & H4). exists z, s. rewrite covered_rrset in H4. split; [apply reach_visited; assumption |]. split; [apply good_ok; auto | auto].
  Qed.

  Lemma used_list st : complete e inp st -> exists L, forall s, In s L <-> Used e inp s.
  Proof.
    intros C. destruct (co_list _ _ _ C) as (vis & HV).
    exists (flat_map (fun z => (match verify_dnskeys e false (dnskey_rrsigs inp z) (dss_of inp z) (zone_dnskeys inp z) with Ok s => [s] | _ => [] end) ++
      filter (fun s => match verify_rrsig e false s (zone_dnskeys inp z) (covered inp s) with Ok _ => true | _ => false end) (zone_rrsigs inp z)) vis).
    intros s. rewrite used_iff, in_flat_map. split.
    - intros (z & H1 & H2). exists z. split; [apply HV; exact H1 |]. apply in_app_or in H2 as [H2 | H2].
      + left. unfold keysig. destruct (verify_dnskeys _ _ _ _ _) as [x| | |]; try contradiction. destruct H2 as [-> | []]. reflexivity.
      + right. apply filter_In in H2 as [H2 H3]. split; [exact H2 |]. unfold ok. destruct (verify_rrsig _ _ _ _ _) as [[]| | |]; congruence.
    - intros (z & H1 & H2). exists z. split; [apply HV; exact H1 |]. apply in_or_app. destruct H2 as [H2 | [H2 H3]].
      + left. unfold keysig in H2. rewrite H2. left. reflexivity.
      + right. apply filter_In. split; [exact H2 |]. unfold ok in H3. rewrite H3. reflexivity.
  Qed.

  Lemma used_held s : Used e inp s -> held_sig s.
  Proof.
    intros H. eapply held_rrsig; [exact Hheld |]. apply used_iff in H as (z & _ & [H | [H _]]).
    - unfold keysig, verify_dnskeys in H. destruct (is_nil _); [discriminate |]. destruct (negb _); [discriminate |]. apply verify_dnskey_sigs_ok in H as [H _]. apply in_dnskey_rrsigs in H. apply H.
    - apply in_zone_rrsigs in H. apply H.
  Qed.

  Lemma complete_window st : complete e inp st -> exists L, (forall s, In s L <-> Used e inp s) /\
    is_max (v_inception st) (map (fun s => resolve_time (rs_inception s)) L) /\
    is_min (v_expiry st) (map (fun s => resolve_time (rs_expiration s)) L) /\ is_min (v_ttl st) (map rs_orig_ttl L).
  Proof.
    intros C. destruct (used_list st C) as (L & HL). exists L. split; [exact HL |].
    assert (NE : L <> []).
    { destruct (proj1 (co_done _ _ _ C root_name (mr_root _ _))) as (k & K). intros ->. assert (G : Used e inp k) by (apply used_iff; exists root_name; split; [apply mr_root | left; exact K]).
      apply HL in G. destruct G. }
    assert (HH : forall s, In s L -> rs_inception s < 2 ^ 32 /\ rs_expiration s < 2 ^ 32 /\ rs_orig_ttl s < 2 ^ 32).
    { intros s Hs. apply HL, used_held in Hs. unfold held_sig, Held in Hs. cbn [typed_rr] in Hs. unfold is_u32 in Hs. tauto. }
    assert (Q : forall P : rrsig -> Prop, (forall s, In s L -> P s) <-> (forall z s, mreach e inp z -> keysig e inp z s \/ (In s (zone_rrsigs inp z) /\ ok e inp z s) -> P s)).
    { intros P. split.
      - intros H z s Hz HU. apply H, HL, used_iff. eauto.
      - intros H s Hs. apply HL, used_iff in Hs as (z & A & B). eauto. }
    split; [| split].
    - apply max_exists; [exact NE |]. intros b. rewrite (co_inc _ _ _ C), Q. reflexivity.
    - apply (min_exists _ _ (2 ^ 64 - 1)); [exact NE | |].
      + intros s Hs. destruct (HH s Hs) as (_ & H & _). pose proof (resolve_time_small _ H) as G.
        assert (X : 2 ^ 34 < 2 ^ 64 - 1) by reflexivity. revert G X. generalize (2 ^ 34) (2 ^ 64 - 1). intros a b. lia.
      + intros b. rewrite (co_exp _ _ _ C), Q. reflexivity.
    - apply (min_exists _ _ (2 ^ 32 - 1)); [exact NE | |].
      + intros s Hs. destruct (HH s Hs) as (_ & _ & H). lia.
      + intros b. rewrite (co_ttl _ _ _ C), Q. reflexivity.
  Qed.

  Lemma complete_held st : complete e inp st -> Forall Held (v_res st).
  Proof.
    intros C. rewrite Forall_forall. intros r Hr. apply (co_res _ _ _ C) in Hr as (z & s & _ & _ & _ & _ & H). rewrite covered_rrset in H. apply in_rrset in H as [H _].
    rewrite Forall_forall in Hheld. auto.
  Qed.

  Lemma complete_order st : complete e inp st -> forall z s, Visited e inp z -> ZoneSig inp z s ->
    (exists p, rs_name s = p ++ z) /\ (PassedSig inp z s \/ (GoodSig e inp z s /\ Fits s)).
  Proof.
    intros C z s Hz Hs. assert (HI : In s (zone_rrsigs inp z)) by (apply in_zone_rrsigs; exact Hs).
    apply reach_visited in Hz; [| exact Hheld]. destruct (co_done _ _ _ C z Hz) as [_ D]. destruct (D s HI) as [D1 D2]. apply ends_with_spec in D1. split; [exact D1 |].
    destruct D2 as [D2 | (D2 & D3 & D4)].
    - left. apply (passed_unsup e); auto.
    - right. assert (G : GoodSig e inp z s) by (apply good_ok; auto). split; [exact G |]. apply (fits_spec e inp Hheld Hmax z s G). auto.
  Qed.

  Lemma complete_needs st : complete e inp st -> forall nc z ty, In (nc, z, ty) (v_needs st) <-> NeedsDenial e inp z nc ty.
  Proof.
    intros C nc z ty. rewrite (co_needs _ _ _ C). unfold NeedsDenial.
    assert (FIT : forall z s, Visited e inp z -> GoodSig e inp z s -> rs_ty s <> 46 /\ Fits s).
    { intros z0 s Hz G. destruct (complete_order st C z0 s Hz (proj1 G)) as [_ [P | [_ F]]]; [| split; [apply F | exact F]].
      exfalso. apply (passed_unsup e) in P as [_ P]; [| exact Hheld]. apply good_ok in G as [_ G]; [| exact Hheld]. unfold unsup, ok in *. congruence. }
    split.
    - intros (z0 & s & H1 & H2 & H3 & H4 & H5). assert (G : GoodSig e inp z0 s) by (apply good_ok; auto). apply reach_visited in H1; [| exact Hheld].
      destruct (FIT z0 s H1 G) as [F1 F2]. apply (needs_spec e inp Hheld Hmax z0 s nc z ty G H4 F1 F2) in H5 as (N47 & -> & -> & pre & l & suf & A1 & A2 & ->).
      exists s, pre, l, suf. auto 10.
    - intros (s & pre & l & suf & H1 & G & H4 & H5 & -> & A1 & A2 & ->). exists z, s. destruct (FIT z s H1 G) as [F1 F2].
      split; [apply reach_visited; assumption |]. apply good_ok in G as G'; [| exact Hheld]. destruct G' as [G1 G2]. split; [exact G1 |]. split; [exact G2 |]. split; [exact H4 |].
      apply (needs_spec e inp Hheld Hmax z s _ _ _ G H4 F1 F2). split; [exact H5 |]. split; [reflexivity |]. split; [reflexivity |]. exists pre, l, suf. auto.
  Qed.

  Lemma complete_denied st z nc ty : complete e inp st -> (DischargedAt e (v_res st) z nc ty <-> DeniedUnder e inp z nc ty).
  Proof.
    intros C. assert (P : forall r, In r (v_res st) <-> Proven e inp r) by (intros r; rewrite (co_res _ _ _ C), proven_iff; reflexivity).
    unfold DischargedAt, DeniedUnder. split; intros [(n & p & H1 & H2) | (n & p & H1 & H2)].
    - left. exists n, p. split; [apply P; exact H1 | exact H2].
    - right. exists n, p. split; [apply P; exact H1 | exact H2].
    - left. exists n, p. split; [apply P; exact H1 | exact H2].
    - right. exists n, p. split; [apply P; exact H1 | exact H2].
  Qed.

  Lemma needs_valid z nc ty : NeedsDenial e inp z nc ty -> valid_name nc.
  Proof.
    intros (s & pre & l & suf & _ & ((G & _) & _) & _ & _ & _ & L & _ & ->). assert (HV := held_name _ (held_rrsig _ _ Hheld G)). cbn [rr_name] in HV.
    destruct (valid_labels _ HV) as (ls & L1 & L2). rewrite <- (labelsof_inj _ _ _ L L1) in *.
    assert (T := trailing_of _ _ (N.of_nat (length (l :: suf))) L L2).
    replace (N.of_nat (length (pre ++ l :: suf)) <? N.of_nat (length (l :: suf))) with false in T by (symmetry; apply N.ltb_ge; rewrite app_length; lia).
    replace (length (pre ++ l :: suf) - N.to_nat (N.of_nat (length (l :: suf))))%nat with (length pre) in T by (rewrite app_length; lia).
    rewrite skipn_app, skipn_all, Nat.sub_diag in T. cbn [skipn app] in T. apply trailing_valid in T as [T _]; assumption.
  Qed.

  Lemma accepted_result fuel v : verify_rr_stream e false fuel inp = Ok v ->
    (forall r, In r (vr_rrs v) <-> Proven e inp r /\ rr_ty r <> 47 /\ rr_ty r <> 50) /\
    exists L, (forall s, In s L <-> Used e inp s) /\
      is_max (vr_valid_from v) (map (fun s => resolve_time (rs_inception s)) L) /\
      is_min (vr_expires v) (map (fun s => resolve_time (rs_expiration s)) L) /\ is_min (vr_max_cache_ttl v) (map rs_orig_ttl L).
  Proof.
    intros H. apply verify_inv in H as (st & H1 & H2 & H3 & H4 & ->). cbn [vr_rrs vr_valid_from vr_expires vr_max_cache_ttl].
    pose proof (loop_complete _ _ _ _ H1) as C. split; [| apply complete_window; exact C].
    intros r. rewrite in_vr, (co_res _ _ _ C), proven_iff. reflexivity.
  Qed.

  Lemma loop_acceptable fuel st : zone_loop e false inp fuel vinit = Ok st -> v_res st <> [] -> v_inception st < v_expiry st -> Acceptable e inp.
  Proof.
    intros H1 H2 H3. pose proof (loop_complete _ _ _ _ H1) as C. constructor.
    - intros z Hz. apply reach_visited in Hz; [| exact Hheld]. destruct (proj1 (co_done _ _ _ C z Hz)) as (s & Hs). exists s. apply keysig_spec; assumption.
    - apply (complete_order st C).
    - destruct (v_res st) as [| r l] eqn:E; [congruence |]. exists r. apply proven_iff. apply (co_res _ _ _ C). rewrite E. left. reflexivity.
    - destruct (co_root _ _ _ C) as (s & A & B & D). exists s. split; [apply good_ok; auto | exact D].
    - intros z s Hz Hs Ht. apply reach_visited in Hz; [| exact Hheld]. apply good_ok in Hs as [A B]; [| exact Hheld]. apply (co_self _ _ _ C z s); assumption.
    - intros a b Ha Hb. destruct (complete_window st C) as (L & HL & (_ & M1) & (_ & M2) & _). rewrite Forall_forall in M1, M2.
      apply HL in Ha, Hb. specialize (M1 _ (in_map _ _ _ Ha)). specialize (M2 _ (in_map _ _ _ Hb)). cbn beta in M1, M2. lia.
  Qed.

  Lemma accepted_acceptable fuel v : verify_rr_stream e false fuel inp = Ok v -> Acceptable e inp.
  Proof. intros H. apply verify_inv in H as (st & H1 & H2 & H3 & _ & _). eapply loop_acceptable; eauto. Qed.

  Lemma accepted_denials fuel v : SortsNeeds e -> OneZone e inp -> verify_rr_stream e false fuel inp = Ok v -> Denials e inp.
  Proof.
    intros HS HO H. apply verify_inv in H as (st & H1 & H2 & H3 & H4 & _). pose proof (loop_complete _ _ _ _ H1) as C.
    assert (IN : forall nd, In nd (rev (e_sort_needs e (v_needs st))) <-> In nd (v_needs st)).
    { intros nd. rewrite <- in_rev. split; apply Permutation_in; [apply Permutation_sym |]; apply HS. }
    intros z nc ty Hn. apply (complete_denied st z nc ty C). eapply (proof_loop_only e (v_res st) (complete_held st C)); [| | exact H4 |].
    - intros a b c Hx. apply IN, (complete_needs st C) in Hx. eapply needs_valid; eauto.
    - intros a b b' c c' Hx Hy. apply IN, (complete_needs st C) in Hx, Hy. eapply HO; eauto.
    - apply IN, (complete_needs st C). exact Hn.
  Qed.

  Lemma acceptable_accepted : SortsNeeds e -> TwoParams e inp -> Acceptable e inp -> Denials e inp -> exists fuel v, verify_rr_stream e false fuel inp = Ok v.
  Proof.
    intros HS HT A D.
    assert (OO : order_ok e inp).
    { split; [| split].
      - intros z Hz. apply reach_visited in Hz; [| exact Hheld]. split.
        + destruct (ac_keys _ _ A z Hz) as (s & Hs). exists s. apply keysig_spec; assumption.
        + intros s Hs. apply in_zone_rrsigs in Hs as HZ. destruct (ac_sigs _ _ A z s Hz HZ) as [A1 A2]. split; [apply ends_with_spec; exact A1 |].
          destruct A2 as [A2 | [A2 A3]].
          * left. apply (passed_unsup e inp Hheld) in A2. apply A2.
          * right. pose proof (proj1 (fits_spec e inp Hheld Hmax z s A2) A3) as [F1 F2]. apply good_ok in A2 as [_ A2]; [| exact Hheld]. auto.
      - intros z Hz. assert (HH := Hheld). rewrite Forall_forall in HH. induction Hz as [| z s _ _ Hs _ _]; [cbn; lia |].
        apply in_zone_rrsigs in Hs as [Hs _]. apply HH in Hs. pose proof (held_name _ Hs) as V. cbn [rr_name] in V. apply valid_name_spec in V as [(ls & L1 & L2 & L3 & L4) _]. lia.
      - intros z s Hz Hs Ho Ht. apply (ac_self _ _ A z s); [apply reach_visited; assumption | apply good_ok; auto | exact Ht]. }
    destruct (loop_ends e inp OO) as (fuel & st & E).
    { destruct (ac_root _ _ A) as (s & Hs & Ht). apply good_ok in Hs as [S1 S2]; [| exact Hheld]. exists s. auto. }
    exists fuel. pose proof (loop_complete _ _ _ _ E) as C. unfold verify_rr_stream. rewrite E. cbn [obind]. unfold finish_verify.
    destruct (v_res st) as [| r0 res0] eqn:ER.
    { exfalso. destruct (ac_some _ _ A) as (r & Hr). apply proven_iff, (co_res _ _ _ C) in Hr. rewrite ER in Hr. destruct Hr. }
    cbn [is_nil]. rewrite <- ER.
    assert (W : v_inception st < v_expiry st).
    { destruct (complete_window st C) as (L & HL & (M1 & _) & (M2 & _) & _). apply in_map_iff in M1 as (a & <- & Ha), M2 as (b & <- & Hb). apply (ac_window _ _ A); apply HL; assumption. }
    replace (v_expiry st <=? v_inception st) with false by (symmetry; apply N.leb_gt; exact W). cbv zeta.
    rewrite (proof_loop_all e (v_res st) (complete_held st C)); [cbn [obind]; eauto | rewrite rev_length; lia |].
    - intros nm z ty Hn. rewrite <- in_rev in Hn. apply (Permutation_in _ (Permutation_sym (HS _))) in Hn. apply (complete_needs st C) in Hn.
      split; [eapply needs_valid; eauto |]. split; [| apply (complete_denied st z nm ty C); apply D; exact Hn].
      destruct (HT z nm ty Hn) as (p & q & HPQ). exists p, q. intros n pre In_res. apply HPQ. apply (co_res _ _ _ C), proven_iff in In_res. exact In_res.
  Qed.
End V.

Lemma accepted_iff e inp : Forall Held inp -> SortsNeeds e -> (forall s, In (RR_RRSig s) inp -> ~ EmptyMaxLabels inp s) -> TwoParams e inp -> OneZone e inp ->
  ((exists fuel v, verify_rr_stream e false fuel inp = Ok v) <-> Acceptable e inp /\ Denials e inp).
Proof.
  intros H1 H2 H3 H4 H5. split.
  - intros (fuel & v & H). split; [eapply accepted_acceptable; eauto | eapply accepted_denials; eauto].
  - intros [A B]. apply acceptable_accepted; assumption.
Qed.

Lemma verdict_necessary e inp fuel v : Forall Held inp -> (forall s, In (RR_RRSig s) inp -> ~ EmptyMaxLabels inp s) ->
  verify_rr_stream e false fuel inp = Ok v -> Acceptable e inp.
Proof. intros Hh Hm. apply accepted_acceptable; assumption. Qed.
Lemma verdict_sufficient e inp : Forall Held inp -> SortsNeeds e -> (forall s, In (RR_RRSig s) inp -> ~ EmptyMaxLabels inp s) ->
  TwoParams e inp -> Acceptable e inp -> Denials e inp -> exists fuel v, verify_rr_stream e false fuel inp = Ok v.
Proof. intros Hh Hs Hm. apply acceptable_accepted; assumption. Qed.
Lemma verdict_result e inp fuel v : Forall Held inp -> verify_rr_stream e false fuel inp = Ok v ->
  (forall r, In r (vr_rrs v) <-> Proven e inp r /\ rr_ty r <> 47 /\ rr_ty r <> 50) /\
  exists used, (forall s, In s used <-> Used e inp s) /\
    is_max (vr_valid_from v) (map (fun s => resolve_time (rs_inception s)) used) /\
    is_min (vr_expires v) (map (fun s => resolve_time (rs_expiration s)) used) /\ is_min (vr_max_cache_ttl v) (map rs_orig_ttl used).
Proof. intros Hh. apply accepted_result; assumption. Qed.

(** ** C61 *)
Lemma inner_denials e inp : InnerDenials e inp -> Denials e inp.
Proof.
  intros H z nc ty Hn. destruct (H z nc ty Hn) as [(n & p & H1 & H2 & H3 & H4) | (n & p & H1 & H2 & h & nh & H3 & H4 & H5)].
  - left. exists n, p. split; [exact H1 |]. split; [exact H2 |]. right. split; [right; exact H3 | exact H4].
  - right. exists n, p. split; [exact H1 |]. split; [exact H2 |]. exists h, nh. split; [exact H3 |]. right. split; [right; exact H4 | exact H5].
Qed.
Lemma inner_accepted e inp : Forall Held inp -> SortsNeeds e -> (forall s, In (RR_RRSig s) inp -> ~ EmptyMaxLabels inp s) ->
  TwoParams e inp -> Acceptable e inp -> InnerDenials e inp -> exists fuel v, verify_rr_stream e false fuel inp = Ok v.
Proof. intros Hh Hs Hm Ht Ha Hd. apply acceptable_accepted; auto. apply inner_denials. exact Hd. Qed.
