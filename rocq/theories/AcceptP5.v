(** Consequences of C60: which orders of the records matter (C31), and exactly when validation of
    zones in order ends (C25). *)
From Verif Require Import Base BaseP NameM WireM RRM Base32M ValM NameSpec NameP RecSpec CodecSpec CodecP OrdP ValSpec ValP ValP2 ValP3 ValP4 ValP5 OrdRR OrderSpec OrderP DupP AcceptSpec AcceptP AcceptP2 AcceptP3 AcceptP4.
From Coq Require Import Permutation Arith.
Local Open Scope N_scope.

(** ** C25 *)
Lemma loop_runs e inp : (forall z, mreach e inp z -> zdone e inp z) -> forall fuel vis st, seen e inp vis st ->
  zone_loop e false inp fuel st = Loop \/ exists st', zone_loop e false inp fuel st = Ok st'.
Proof.
  intros D. induction fuel as [| f IH]; intros vis st S; cbn [zone_loop];
    destruct (bytes_eqb (v_zone st) root_name || negb (is_nil (v_pending st))) eqn:G; eauto.
  apply loop_guard in G. destruct (proj2 (zone_step_fine e inp st (se_pend _ _ _ _ S) G)) as (st1 & E1).
  { apply D. eapply next_reach; eauto. }
  rewrite E1. cbn [obind]. eapply IH. eapply seen_step; eauto.
Qed.

Section T.
  Variables (e : env) (inp : list RR).
  Hypothesis Hheld : Forall Held inp.
  Hypothesis Hmax : forall s, In (RR_RRSig s) inp -> ~ EmptyMaxLabels inp s.

  Lemma in_order_done : InOrder e inp -> forall z, mreach e inp z -> zdone e inp z.
  Proof.
    intros [A B] z Hz. apply reach_visited in Hz; [| exact Hheld]. split.
    - destruct (A z Hz) as (s & Hs). exists s. apply keysig_spec; assumption.
    - intros s Hs. apply in_zone_rrsigs in Hs as HZ. destruct (B z s Hz HZ) as [A1 A2]. split; [apply ends_with_spec; exact A1 |].
      destruct A2 as [A2 | [A2 A3]].
      + left. apply (passed_unsup e inp Hheld) in A2. apply A2.
      + right. pose proof (proj1 (fits_spec e inp Hheld Hmax z s A2) A3) as [F1 F2]. apply good_ok in A2 as [_ A2]; [| exact Hheld]. auto.
  Qed.

  Lemma reach_short z : mreach e inp z -> (length z <= 255)%nat.
  Proof.
    intros Hz. assert (HH := Hheld). rewrite Forall_forall in HH. induction Hz as [| z s _ _ Hs _ _]; [cbn; lia |].
    apply in_zone_rrsigs in Hs as [Hs _]. apply HH in Hs. pose proof (held_name _ Hs) as V. cbn [rr_name] in V. apply valid_name_spec in V as [(ls & L1 & L2 & L3 & L4) _]. lia.
  Qed.

  (** Whatever else is wrong, validation ends if the root delegates and no zone delegates itself. *)
  Definition no_self : Prop := forall z s, mreach e inp z -> In s (zone_rrsigs inp z) -> ok e inp z s -> rs_ty s = 43 -> rs_name s <> z.
  Definition stuck (st : vstate) : Prop := (v_zone st = root_name \/ v_pending st <> []) /\ forall st', zone_step e false inp st <> Ok st'.

  Lemma drain_or_stuck : no_self -> forall k new rest vis st, seen e inp vis st -> v_pending st = new ++ rest ->
    (forall p, In p new -> (1 < length (fst p) /\ 256 - length (fst p) < k)%nat) ->
    (exists st', zsteps e inp st st' /\ stuck st') \/
    exists st' vis', zsteps e inp st st' /\ seen e inp vis' st' /\ v_pending st' = rest /\ (v_zone st' <> root_name \/ (new = [] /\ st' = st)).
  Proof.
    intros O3. induction k as [| k IHk]; intros new.
    { intros rest vis st S HP HL. destruct new as [| p new]; [| destruct (HL p (or_introl eq_refl)); lia].
      right. exists st, vis. split; [apply zs_refl |]. split; [exact S |]. split; [exact HP | right; auto]. }
    induction new as [| [z d] new IHn]; intros rest vis st S HP HL.
    { right. exists st, vis. split; [apply zs_refl |]. split; [exact S |]. split; [exact HP | right; auto]. }
    assert (GZ : v_zone st = root_name \/ v_pending st <> []) by (right; rewrite HP; discriminate).
    assert (NZ : next_zone st = z) by (unfold next_zone, pop_zone; rewrite HP; reflexivity).
    assert (MZ : mreach e inp z) by (rewrite <- NZ; eapply next_reach; eauto).
    destruct (zone_step e false inp st) as [st1 | x | |] eqn:E1;
      [| left; exists st; split; [apply zs_refl | split; [exact GZ | intros st' G; congruence]] ..].
    pose proof (seen_step _ _ _ _ _ S GZ E1) as S1. pose proof (zone_step_effect _ _ _ _ (se_pend _ _ _ _ S) GZ E1) as [ZD (Z1 & _ & _ & _ & _ & _ & (new1 & P1 & Q1) & _)].
    rewrite NZ in *. rewrite HP in P1. cbn [tl app] in P1. destruct (HL (z, d) (or_introl eq_refl)) as [L1 L2]. cbn [fst] in L1, L2.
    destruct (IHk new1 (new ++ rest) _ st1 S1 P1) as [(st2 & X2 & Y2) | (st2 & vis2 & X2 & S2 & P2 & Y2)].
    { intros p Hp. apply Q1 in Hp as (s & H1 & H2 & H3 & ->). cbn [fst]. pose proof (proj2 ZD s H1) as [H4 _].
      pose proof (longer _ _ H4 (O3 z s MZ H1 H2 H3)). pose proof (reach_short _ (mr_child e inp z s MZ H1 H2 H3)). lia. }
    { left. exists st2. split; [eapply zs_step; eauto | exact Y2]. }
    destruct (IHn rest vis2 st2 S2 P2) as [(st3 & X3 & Y3) | (st3 & vis3 & X3 & S3 & P3 & Y3)]; [intros p Hp; apply HL; right; exact Hp | |].
    { left. exists st3. split; [eapply zs_step; [exact GZ | exact E1 |]; eapply zsteps_trans; eauto | exact Y3]. }
    right. exists st3, vis3. split; [eapply zs_step; [exact GZ | exact E1 |]; eapply zsteps_trans; eauto |]. split; [exact S3 |]. split; [exact P3 |]. left.
    destruct Y3 as [Y3 | [_ ->]]; [exact Y3 |]. destruct Y2 as [Y2 | [_ ->]]; [exact Y2 |]. rewrite Z1. intros ->. cbn in L1. lia.
  Qed.

  Lemma stuck_ends st : stuck st -> forall f, zone_loop e false inp (S f) st <> Loop.
  Proof.
    intros [G N] f. cbn [zone_loop]. apply loop_guard in G. rewrite G. destruct (zone_step e false inp st) as [x | x | |] eqn:E; cbn [obind]; try discriminate.
    - exfalso. apply (N x). reflexivity.
    - exfalso. eapply ValP4.zone_step_no_loop; eauto.
  Qed.

  Lemma loop_ends_or_stuck : no_self -> (exists s, In s (zone_rrsigs inp root_name) /\ ok e inp root_name s /\ rs_ty s = 43) ->
    exists fuel, zone_loop e false inp fuel vinit <> Loop.
  Proof.
    intros O3 (r & R1 & R2 & R3). assert (GZ : v_zone vinit = root_name \/ v_pending vinit <> []) by (left; reflexivity).
    assert (NZ : next_zone vinit = root_name) by reflexivity.
    destruct (zone_step e false inp vinit) as [st1 | x | |] eqn:E1;
      [| exists 1%nat; apply stuck_ends; split; [exact GZ | intros st' G; congruence] ..].
    pose proof (seen_step _ _ _ _ _ (seen_init e inp) GZ E1) as S1. pose proof (zone_step_effect _ _ _ _ (se_pend _ _ _ _ (seen_init e inp)) GZ E1) as [ZD (Z1 & _ & _ & _ & _ & _ & (new1 & P1 & Q1) & D1)].
    rewrite NZ in *. cbn [vinit v_pending tl] in P1.
    destruct (drain_or_stuck O3 257%nat new1 [] _ st1 S1 P1) as [(st2 & X2 & Y2) | (st2 & vis2 & X2 & S2 & P2 & Y2)].
    { intros p Hp. apply Q1 in Hp as (s & H1 & H2 & H3 & ->). cbn [fst]. pose proof (proj2 ZD s H1) as [H4 _].
      pose proof (longer _ _ H4 (O3 _ s (mr_root e inp) H1 H2 H3)) as H5. change (length root_name) with 1%nat in H5. lia. }
    { destruct (zsteps_loop e inp vinit st2) as (n & H); [eapply zs_step; eauto |]. exists (n + 1)%nat. rewrite H. apply stuck_ends. exact Y2. }
    destruct Y2 as [Y2 | [-> _]].
    - destruct (zsteps_loop e inp vinit st2) as (n & H); [eapply zs_step; eauto |]. exists (n + 0)%nat. rewrite H. cbn [zone_loop].
      rewrite P2. cbn [is_nil negb]. rewrite orb_false_r. destruct (bytes_eqb (v_zone st2) root_name) eqn:E; [apply bytes_eqb_eq in E; contradiction | discriminate].
    - pose proof (D1 r R1 R2 R3) as G. rewrite P1 in G. destruct G.
  Qed.

  Lemma ends_if : (exists s, GoodSig e inp [46] s /\ rs_ty s = 43) -> (forall z s, Visited e inp z -> GoodSig e inp z s -> rs_ty s = 43 -> rs_name s <> z) ->
    exists fuel, verify_rr_stream e false fuel inp <> Loop.
  Proof.
    intros (s & Hs & Ht) B. destruct loop_ends_or_stuck as (fuel & E).
    - intros z x Hz Hx Ho Hxt. apply (B z x); [apply reach_visited; assumption | apply good_ok; auto | exact Hxt].
    - apply good_ok in Hs as [S1 S2]; [| exact Hheld]. exists s. auto.
    - exists fuel. unfold verify_rr_stream. destruct (zone_loop e false inp fuel vinit) as [st| | |]; cbn [obind]; try discriminate; [apply finish_no_loop | contradiction].
  Qed.

  Lemma ends_exactly : InOrder e inp ->
    ((exists fuel, verify_rr_stream e false fuel inp <> Loop) <->
     (exists s, GoodSig e inp [46] s /\ rs_ty s = 43) /\ (forall z s, Visited e inp z -> GoodSig e inp z s -> rs_ty s = 43 -> rs_name s <> z)).
  Proof.
    intros O. pose proof (in_order_done O) as D. split; [| intros [A B]; apply ends_if; assumption].
    intros (fuel & H). destruct (loop_runs e inp D fuel [] vinit (seen_init _ _)) as [G | (st & G)].
    { exfalso. apply H. unfold verify_rr_stream. rewrite G. reflexivity. }
    pose proof (loop_complete _ _ _ _ G) as C. split.
    - destruct (co_root _ _ _ C) as (s & A & B & E). exists s. split; [apply good_ok; auto | exact E].
    - intros z s Hz Hs Ht. apply reach_visited in Hz; [| exact Hheld]. apply good_ok in Hs as [A B]; [| exact Hheld]. apply (co_self _ _ _ C z s); assumption.
  Qed.
End T.

(** ** C31 *)
Section Perm.
  Variables (e : env) (inp inp' : list RR).
  Hypothesis HP : Permutation inp inp'.
  Hypothesis HK : forall z (P : dnskey -> Prop) s k, Chosen P s (keys_at inp z) k -> Chosen P s (keys_at inp' z) k.
  Hypothesis HS : forall z (U V : rrsig -> Prop) s,
    (exists pre post, sigs_over inp z 48 = pre ++ s :: post /\ Forall U pre /\ V s) ->
    (exists pre post, sigs_over inp' z 48 = pre ++ s :: post /\ Forall U pre /\ V s).

  Lemma rrset_perm n t : Permutation (rrset inp n t) (rrset inp' n t).
  Proof. unfold rrset. apply perm_filter. exact HP. Qed.
  Lemma in_perm r : In r inp <-> In r inp'.
  Proof. split; apply Permutation_in; [| apply Permutation_sym]; exact HP. Qed.
  Lemma chosen_ext (P Q : dnskey -> Prop) s keys k : (forall x, P x <-> Q x) -> Chosen P s keys k -> Chosen Q s keys k.
  Proof.
    intros H (pre & post & H1 & H2 & H3 & H4). exists pre, post. split; [exact H1 |]. split; [| split; [apply H; exact H3 | exact H4]].
    eapply Forall_impl; [| exact H2]. cbn. intros a Ha [X Y]. apply Ha. split; [apply H; exact X | exact Y].
  Qed.
  Lemma valid_perm P z s n t : ValidSig e P (keys_at inp z) s (rrset inp n t) -> ValidSig e P (keys_at inp' z) s (rrset inp' n t).
  Proof.
    intros (H1 & k & msg & H2 & H3 & H4). split; [eapply Permutation_Forall; [apply rrset_perm | exact H1] |]. exists k, msg. split; [apply HK; exact H2 |].
    split; [| exact H4]. rewrite <- (sort_unique _ _ (rrset_perm n t)). exact H3.
  Qed.
  Lemma unknown_perm P z s n t : UnknownSig P (keys_at inp z) s (rrset inp n t) -> UnknownSig P (keys_at inp' z) s (rrset inp' n t).
  Proof.
    intros (H1 & H0 & k & msg & H2 & H3). split; [eapply Permutation_Forall; [apply rrset_perm | exact H1] |]. split; [exact H0 |]. exists k, msg. split; [apply HK; exact H2 |].
    rewrite <- (sort_unique _ _ (rrset_perm n t)). exact H3.
  Qed.
  Lemma delegated_perm z k : DelegatedKey e (delegations inp z) k <-> DelegatedKey e (delegations inp' z) k.
  Proof.
    assert (D : Permutation (delegations inp z) (delegations inp' z)).
    { unfold delegations. destruct (list_eq_dec N.eq_dec z [46]); [apply Permutation_refl | apply perm_flat_map, rrset_perm]. }
    unfold DelegatedKey. split; intros (d & H1 & H2 & H3 & H4); exists d.
    - split; [eapply Permutation_in; eauto |]. split; [exact H2 |]. split; [exact H3 |]. destruct H4 as [H4 | (A & B & C)]; [left; exact H4 | right].
      split; [exact A |]. split; [exact B |]. eapply Permutation_Forall; eauto.
    - split; [eapply Permutation_in; [apply Permutation_sym |]; eauto |]. split; [exact H2 |]. split; [exact H3 |]. destruct H4 as [H4 | (A & B & C)]; [left; exact H4 | right].
      split; [exact A |]. split; [exact B |]. eapply Permutation_Forall; [apply Permutation_sym |]; eauto.
  Qed.
  Lemma keysig_perm z s : KeySig e inp z s -> KeySig e inp' z s.
  Proof.
    intros H. apply (HS z (fun x => UnknownSig (DelegatedKey e (delegations inp z)) (keys_at inp z) x (rrset inp z 48)) (fun x => ValidSig e (DelegatedKey e (delegations inp z)) (keys_at inp z) x (rrset inp z 48))) in H as (pre & post & H1 & H2 & H3). exists pre, post. split; [exact H1 |]. split.
    - eapply Forall_impl; [| exact H2]. cbn. intros x Hx. apply unknown_perm in Hx. destruct Hx as (X1 & X0 & k & msg & X2 & X3). split; [exact X1 |]. split; [exact X0 |].
      exists k, msg. split; [| exact X3]. eapply chosen_ext; [| exact X2]. intros. apply delegated_perm.
    - apply valid_perm in H3. destruct H3 as (X1 & k & msg & X2 & X3). split; [exact X1 |].
      exists k, msg. split; [| exact X3]. eapply chosen_ext; [| exact X2]. intros. apply delegated_perm.
  Qed.
  Lemma zonesig_perm z s : ZoneSig inp z s <-> ZoneSig inp' z s.
  Proof. unfold ZoneSig. rewrite in_perm. reflexivity. Qed.
  Lemma good_perm z s : GoodSig e inp z s -> GoodSig e inp' z s.
  Proof. intros [A B]. split; [apply zonesig_perm; exact A | apply valid_perm; exact B]. Qed.
  Lemma passed_perm z s : PassedSig inp z s -> PassedSig inp' z s.
  Proof. intros [A B]. split; [apply zonesig_perm; exact A | apply unknown_perm; exact B]. Qed.
  Lemma visited_perm z : Visited e inp z -> Visited e inp' z.
  Proof. induction 1 as [| z s _ IH G T]; [constructor | apply (Vi_child _ _ z); auto using good_perm]. Qed.
  Lemma used_perm s : Used e inp s -> Used e inp' s.
  Proof. intros (z & H & [K | G]); exists z; auto using visited_perm, keysig_perm, good_perm. Qed.
  Lemma proven_perm r : Proven e inp r -> Proven e inp' r.
  Proof.
    intros (z & s & H1 & H2 & H3 & H4). exists z, s. split; [apply visited_perm; exact H1 |]. split; [apply good_perm; exact H2 |]. split; [exact H3 |].
    eapply Permutation_in; [apply rrset_perm | exact H4].
  Qed.
  Lemma needs_perm z nc ty : NeedsDenial e inp z nc ty -> NeedsDenial e inp' z nc ty.
  Proof.
    intros (s & pre & l & suf & H1 & H2 & H3). exists s, pre, l, suf. split; [apply visited_perm; exact H1 |]. split; [apply good_perm; exact H2 | exact H3].
  Qed.
  Lemma denied_perm z nc ty : DeniedUnder e inp z nc ty -> DeniedUnder e inp' z nc ty.
  Proof.
    intros [(n & p & H1 & H2) | (n & p & H1 & H2)]; [left | right]; exists n, p; (split; [apply proven_perm; exact H1 | exact H2]).
  Qed.
End Perm.

(** The choices that depend on the order are the same in [inp] and [inp']. *)
Definition same_keys (inp inp' : list RR) : Prop := forall z (P : dnskey -> Prop) s k, Chosen P s (keys_at inp z) k -> Chosen P s (keys_at inp' z) k.
Definition same_keysigs (inp inp' : list RR) : Prop := forall z (U V : rrsig -> Prop) s,
  (exists pre post, sigs_over inp z 48 = pre ++ s :: post /\ Forall U pre /\ V s) ->
  (exists pre post, sigs_over inp' z 48 = pre ++ s :: post /\ Forall U pre /\ V s).

Lemma accept_perm e inp inp' : Forall Held inp -> SortsNeeds e -> Permutation inp inp' ->
  same_keys inp inp' -> same_keysigs inp inp' -> same_keys inp' inp -> same_keysigs inp' inp ->
  (forall s, In (RR_RRSig s) inp -> ~ EmptyMaxLabels inp s) -> TwoParams e inp -> OneZone e inp ->
  forall fuel v, verify_rr_stream e false fuel inp = Ok v -> exists fuel' v', verify_rr_stream e false fuel' inp' = Ok v' /\ SameResult v v'.
Proof.
  intros Hh HSo HP K1 S1 K2 S2 Hm Ht Ho fuel v H. assert (HP' := Permutation_sym HP).
  pose proof (accepted_acceptable e inp Hh Hm fuel v H) as A. pose proof (accepted_denials e inp Hh Hm fuel v HSo Ho H) as D.
  assert (Hh' : Forall Held inp') by (eapply Permutation_Forall; eauto).
  assert (Hm' : forall s, In (RR_RRSig s) inp' -> ~ EmptyMaxLabels inp' s).
  { intros s Hs (B1 & B2). apply (in_perm inp inp' HP) in Hs. apply (Hm s Hs). unfold EmptyMaxLabels. split; [| exact B2].
    pose proof (rrset_perm inp inp' HP (rs_name s) (rs_ty s)) as G. rewrite B1 in G. apply Permutation_sym, Permutation_nil in G. exact G. }
  assert (Ht' : TwoParams e inp').
  { intros z nc ty Hn. apply (needs_perm e inp' inp HP' K2) in Hn. destruct (Ht z nc ty Hn) as (p & q & Hpq). exists p, q. intros n pre Hp. apply Hpq. apply (proven_perm e inp' inp HP' K2). exact Hp. }
  destruct (acceptable_accepted e inp' Hh' Hm' HSo Ht') as (fuel' & v' & H').
  { destruct A as [A1 A2 A3 A4 A5 A6]. constructor.
    - intros z Hz. apply (visited_perm e inp' inp HP' K2) in Hz. destruct (A1 z Hz) as (s & Hs). exists s. apply (keysig_perm e inp inp'); assumption.
    - intros z s Hz Hs. apply (visited_perm e inp' inp HP' K2) in Hz. apply (zonesig_perm inp' inp HP') in Hs. destruct (A2 z s Hz Hs) as [B1 [B2 | [B2 B3]]]; (split; [exact B1 |]).
      + left. apply (passed_perm inp inp'); assumption.
      + right. split; [apply (good_perm e inp inp'); assumption | exact B3].
    - destruct A3 as (r & Hr). exists r. apply (proven_perm e inp inp'); assumption.
    - destruct A4 as (s & Hs & T). exists s. split; [apply (good_perm e inp inp'); assumption | exact T].
    - intros z s Hz Hs. apply (visited_perm e inp' inp HP' K2) in Hz. apply (good_perm e inp' inp HP' K2) in Hs. apply (A5 z s Hz Hs).
    - intros a b Ha Hb. apply (used_perm e inp' inp HP' K2 S2) in Ha, Hb. apply A6; assumption. }
  { intros z nc ty Hn. apply (needs_perm e inp' inp HP' K2) in Hn. apply (denied_perm e inp inp'); auto. }
  exists fuel', v'. split; [exact H' |].
  destruct (accepted_result e inp Hh fuel v H) as [R (L & L1 & L2 & L3 & L4)]. destruct (accepted_result e inp' Hh' fuel' v' H') as [R' (L' & L1' & L2' & L3' & L4')].
  assert (LL : forall s, In s L <-> In s L') by (intros s; rewrite L1, L1'; split; apply used_perm; assumption).
  assert (MM : forall (f : rrsig -> N) a b, is_max a (map f L) -> is_max b (map f L') -> a = b).
  { intros f a b [X1 X2] [Y1 Y2]. rewrite Forall_forall in X2, Y2. apply in_map_iff in X1 as (s & <- & X1), Y1 as (s' & <- & Y1). apply LL in X1. apply LL in Y1.
    specialize (X2 _ (in_map f _ _ Y1)). specialize (Y2 _ (in_map f _ _ X1)). lia. }
  assert (NN : forall (f : rrsig -> N) a b, is_min a (map f L) -> is_min b (map f L') -> a = b).
  { intros f a b [X1 X2] [Y1 Y2]. rewrite Forall_forall in X2, Y2. apply in_map_iff in X1 as (s & <- & X1), Y1 as (s' & <- & Y1). apply LL in X1. apply LL in Y1.
    specialize (X2 _ (in_map f _ _ Y1)). specialize (Y2 _ (in_map f _ _ X1)). lia. }
  split; [| split; [eapply MM; eauto | split; eapply NN; eauto]].
  apply NoDup_Permutation; [eapply verified_input; [exact Hh | exact H] | eapply verified_input; [exact Hh' | exact H'] |].
  intros r. rewrite R, R'. split; intros [B1 B2]; (split; [| exact B2]); eapply proven_perm; eauto.
Qed.

Lemma in_keys_at inp z k : In k (keys_at inp z) <-> In (RR_DnsKey k) inp /\ dk_name k = z.
Proof.
  unfold keys_at. rewrite in_flat_map. split.
  - intros (r & H1 & H2). destruct r as [a|a|a|a|a|a|a|k'|a|a|a|a]; try contradiction. destruct (list_eq_dec N.eq_dec (dk_name k') z); [| contradiction].
    destruct H2 as [<- | []]. auto.
  - intros [H1 H2]. exists (RR_DnsKey k). split; [exact H1 |]. cbn. destruct (list_eq_dec N.eq_dec (dk_name k) z); [left; reflexivity | contradiction].
Qed.
Lemma in_sigs_over inp z t s : In s (sigs_over inp z t) <-> In (RR_RRSig s) inp /\ rs_name s = z /\ rs_ty s = t.
Proof.
  unfold sigs_over. rewrite in_flat_map. split.
  - intros (r & H1 & H2). destruct r as [a|a|a|a|a|a|a|a|a|k'|a|a]; try contradiction. destruct (list_eq_dec N.eq_dec (rs_name k') z); [| contradiction].
    destruct (rs_ty k' =? t) eqn:E; [| contradiction]. apply N.eqb_eq in E. destruct H2 as [<- | []]. auto.
  - intros (H1 & H2 & H3). exists (RR_RRSig s). split; [exact H1 |]. cbn. destruct (list_eq_dec N.eq_dec (rs_name s) z); [| contradiction]. rewrite H3, N.eqb_refl. left; reflexivity.
Qed.

Lemma classic_key (x k : dnskey) : {x = k} + {x <> k}.
Proof. repeat decide equality. Qed.
Lemma chosen_first (P : dnskey -> Prop) s keys k : In k keys -> P k -> KeyFor s k -> (forall k', In k' keys -> KeyFor s k' -> k' = k) -> Chosen P s keys k.
Proof.
  induction keys as [| x keys IH]; intros H1 H2 H3 H4; [contradiction |].
  destruct (classic_key x k) as [-> | NE].
  - exists [], keys. split; [reflexivity |]. split; [constructor | auto].
  - destruct H1 as [-> | H1]; [contradiction |]. destruct IH as (pre & post & E & F & G); auto.
    { intros k' Hk'. apply H4. right. exact Hk'. }
    exists (x :: pre), post. split; [cbn; congruence |]. split; [| exact G]. constructor; [| exact F]. intros [_ K]. apply NE, H4; [left; reflexivity | exact K].
Qed.

Lemma one_key_same inp inp' : Permutation inp inp' -> OneKey inp -> same_keys inp inp'.
Proof.
  intros HP O z P s k (pre & post & H1 & H2 & H3 & H4). assert (K : In k (keys_at inp z)) by (rewrite H1; apply in_or_app; right; left; reflexivity).
  apply in_keys_at in K as [K1 K2]. apply chosen_first; auto.
  - apply in_keys_at. split; [eapply Permutation_in; eauto | exact K2].
  - intros k' Hk' F. apply in_keys_at in Hk' as [Q1 Q2]. apply (Permutation_in _ (Permutation_sym HP)) in Q1. apply O; auto; [congruence | |].
    + destruct F as [F _], H4 as [H4 _]. congruence.
    + destruct F as (_ & _ & _ & F), H4 as (_ & _ & _ & H4). congruence.
Qed.
Lemma one_sig_same inp inp' : Permutation inp inp' -> OneKeySig inp -> same_keysigs inp inp'.
Proof.
  intros HP O z U V s (pre & post & H1 & _ & H3). assert (K : In s (sigs_over inp z 48)) by (rewrite H1; apply in_or_app; right; left; reflexivity).
  assert (K' := K). apply in_sigs_over in K as (K1 & K2 & K3).
  assert (A : forall x, In x (sigs_over inp' z 48) -> x = s).
  { intros x Hx. apply in_sigs_over in Hx as (X1 & X2 & X3). apply (Permutation_in _ (Permutation_sym HP)) in X1. apply O; auto. congruence. }
  assert (B : In s (sigs_over inp' z 48)). { apply in_sigs_over. split; [eapply Permutation_in; eauto | auto]. }
  destruct (sigs_over inp' z 48) as [| x l]; [contradiction |]. rewrite (A x (or_introl eq_refl)). exists [], l. split; [reflexivity |]. split; [constructor | exact H3].
Qed.
Lemma one_key_perm inp inp' : Permutation inp inp' -> OneKey inp -> OneKey inp'.
Proof. intros HP O k k' A B. apply O; eapply Permutation_in; try (apply Permutation_sym; exact HP); assumption. Qed.
Lemma one_sig_perm inp inp' : Permutation inp inp' -> OneKeySig inp -> OneKeySig inp'.
Proof. intros HP O k k' A B. apply O; eapply Permutation_in; try (apply Permutation_sym; exact HP); assumption. Qed.

Lemma accept_any_order e inp inp' : Forall Held inp -> SortsNeeds e -> Permutation inp inp' -> OneKey inp -> OneKeySig inp ->
  (forall s, In (RR_RRSig s) inp -> ~ EmptyMaxLabels inp s) -> TwoParams e inp -> OneZone e inp ->
  forall fuel v, verify_rr_stream e false fuel inp = Ok v -> exists fuel' v', verify_rr_stream e false fuel' inp' = Ok v' /\ SameResult v v'.
Proof.
  intros Hh Hs HP O1 O2. assert (HP' := Permutation_sym HP). apply accept_perm; auto.
  - apply one_key_same; assumption.
  - apply one_sig_same; assumption.
  - apply one_key_same; [| eapply one_key_perm]; eassumption.
  - apply one_sig_same; [| eapply one_sig_perm]; eassumption.
Qed.
Lemma accept_same_order e inp inp' : Forall Held inp -> SortsNeeds e -> Permutation inp inp' ->
  (forall z, keys_at inp z = keys_at inp' z /\ sigs_over inp z 48 = sigs_over inp' z 48) ->
  (forall s, In (RR_RRSig s) inp -> ~ EmptyMaxLabels inp s) -> TwoParams e inp -> OneZone e inp ->
  forall fuel v, verify_rr_stream e false fuel inp = Ok v -> exists fuel' v', verify_rr_stream e false fuel' inp' = Ok v' /\ SameResult v v'.
Proof.
  intros Hh Hs HP HE. apply accept_perm; auto.
  - intros z P s k. rewrite (proj1 (HE z)). auto.
  - intros z U V s. rewrite (proj2 (HE z)). auto.
  - intros z P s k. rewrite (proj1 (HE z)). auto.
  - intros z U V s. rewrite (proj2 (HE z)). auto.
Qed.
