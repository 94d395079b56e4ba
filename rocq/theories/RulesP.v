(** Proofs for C87. *)
From Verif Require Import Base BaseP NameM WireM RRM ValM NameSpec NameP RecSpec ValSpec ValP ValP2 ValP3 OrdP OrdRR AcceptSpec AcceptP AcceptP2 AcceptP3 AcceptP4 AcceptP5 RulesSpec.
From Coq Require Import Permutation.
Local Open Scope N_scope.

Lemma signed_labels s r rs msg : rr_ty r <> 47 -> In r rs -> SignedData s (sort_by rr_cmp rs) msg -> exists ls, LabelsOf (rr_name r) ls /\ rs_labels s <= N.of_nat (length ls).
Proof.
  intros T I (pieces & F & _). apply (Permutation_in _ (sort_perm rr_cmp rs)) in I.
  revert I. induction F as [| x y l l' H F IH]; [contradiction |]. intros [-> | I]; [| auto].
  destruct H as (o & [ls L E | E | pre suf _ L _ E] & _); [| contradiction |].
  - exists ls. split; [exact L | lia].
  - exists (pre ++ suf). split; [exact L |]. rewrite app_length. lia.
Qed.
Lemma valid_key e P keys s rs : ValidSig e P keys s rs -> exists k, In k keys /\ KeyFor s k /\ P k.
Proof.
  intros (_ & k & msg & (pre & post & E & _ & HP & K) & _). exists k. split; [rewrite E; apply in_or_app; right; left; reflexivity |]. auto.
Qed.
Lemma valid_labels_of e P keys s inp : rs_ty s <> 47 -> rrset inp (rs_name s) (rs_ty s) <> [] -> ValidSig e P keys s (rrset inp (rs_name s) (rs_ty s)) -> LabelsRule s.
Proof.
  intros T NE (_ & k & msg & _ & D & _). destruct (rrset inp (rs_name s) (rs_ty s)) as [| r l] eqn:E; [contradiction |].
  assert (I : In r (rrset inp (rs_name s) (rs_ty s))) by (rewrite E; left; reflexivity). apply in_rrset in I as (_ & I2 & I3).
  destruct (signed_labels s r (r :: l) msg) as (ls & L & LE); [congruence | left; reflexivity | exact D |]. exists ls. rewrite <- I2. auto.
Qed.
Lemma keys_at_rrset inp z k : In k (keys_at inp z) -> rrset inp z 48 <> [].
Proof. intros H E. apply in_keys_at in H as [H1 H2]. assert (I : In (RR_DnsKey k) (rrset inp z 48)) by (apply in_rrset; auto). rewrite E in I. contradiction. Qed.

Section R.
  Variables (e : env) (inp : list RR).
  Hypothesis Hheld : Forall Held inp.
  Hypothesis Hmax : forall s, In (RR_RRSig s) inp -> ~ EmptyMaxLabels inp s.
  Variables (fuel : nat) (v : verified).
  Hypothesis Hok : verify_rr_stream e false fuel inp = Ok v.

  Lemma visited_name z : Visited e inp z -> z <> [].
  Proof.
    intros V E. destruct V as [| z s _ ((I & _) & _) _]; [discriminate |]. rewrite Forall_forall in Hheld. apply Hheld, held_name in I. cbn [rr_name] in I. rewrite E in I. discriminate I.
  Qed.
  Lemma key_sig_at z s : KeySig e inp z s -> In (RR_RRSig s) inp /\ rs_name s = z /\ rs_ty s = 48 /\
    ValidSig e (DelegatedKey e (delegations inp z)) (keys_at inp z) s (rrset inp (rs_name s) (rs_ty s)).
  Proof.
    intros (pre & post & E & _ & V). assert (I : In s (sigs_over inp z 48)) by (rewrite E; apply in_or_app; right; left; reflexivity).
    apply in_sigs_over in I as (I1 & I2 & I3). rewrite I2, I3. auto.
  Qed.
  Lemma relied_key z s : ReliedOn e inp z s -> KeyRule inp z s.
  Proof.
    intros [_ [K | [_ K]]]; [apply key_sig_at in K as (_ & _ & _ & K) |]; apply valid_key in K as (k & K1 & (K2 & K3 & K4 & K5) & _); apply in_keys_at in K1 as [K1 K6]; exists k; auto.
  Qed.
  Lemma relied_times z s : ReliedOn e inp z s -> TimesRule s.
  Proof.
    intros R. pose proof (accepted_acceptable e inp Hheld Hmax fuel v Hok) as A. unfold TimesRule.
    assert (U : Used e inp s) by (exists z; exact R). pose proof (ac_window _ _ A s s U U). lia.
  Qed.
  Lemma relied_labels z s : ReliedOn e inp z s -> rs_ty s <> 47 -> LabelsRule s.
  Proof.
    intros [V R] T. pose proof (accepted_acceptable e inp Hheld Hmax fuel v Hok) as A. destruct R as [K | G].
    - apply key_sig_at in K as (I & N1 & N2 & K). pose proof (valid_key _ _ _ _ _ K) as (k & K1 & _).
      apply (valid_labels_of _ _ _ _ _ T) in K; [exact K |]. rewrite N1, N2. eapply keys_at_rrset; eauto.
    - pose proof (ac_sigs _ _ A z s V (proj1 G)) as [_ [P | [_ F]]].
      + destruct G as [_ (_ & k & msg & (pre & post & _ & _ & _ & (K1 & K2 & K3 & K4)) & _ & C)]. destruct P as [_ (_ & U & _)].
        exfalso. apply U. destruct C; match goal with X : rs_alg s = _ |- _ => rewrite X end; vm_compute; tauto.
      + destruct F as [_ [F | [F | (ls & L & [F | [_ F]])]]]; [| contradiction | exists ls; split; [exact L | lia] ..].
        assert (V2 : Visited e inp (rs_name s)) by (eapply Vi_child; eauto).
        destruct (ac_keys _ _ A _ V2) as (s2 & K2). apply key_sig_at in K2 as (_ & _ & _ & K2). apply valid_key in K2 as (k & _ & _ & (d & D & _)).
        apply (valid_labels_of e (fun _ => True) (keys_at inp z) s inp T); [| exact (proj2 G)].
        intros E. unfold delegations in D. destruct (list_eq_dec N.eq_dec (rs_name s) [46]) as [X | X].
        * pose proof (ac_self _ _ A z s V G F) as NE. pose proof (ac_sigs _ _ A z s V (proj1 G)) as [(p & Q) _]. rewrite X in Q, NE.
          pose proof (visited_name z V) as NZ. destruct p as [| a [| b p]]; cbn in Q; [congruence | | destruct p; discriminate].
          injection Q as _ Q. apply NZ. auto.
        * rewrite <- F in D. rewrite E in D. destruct D.
  Qed.
End R.

Lemma relied_rules e inp : Forall Held inp -> (forall s, In (RR_RRSig s) inp -> ~ EmptyMaxLabels inp s) -> forall fuel v, verify_rr_stream e false fuel inp = Ok v ->
  forall z s, ReliedOn e inp z s -> KeyRule inp z s /\ TimesRule s /\ (rs_ty s <> 47 -> LabelsRule s) /\ (rs_ty s <> 48 -> SignerRule z s) /\ exists p, rs_name s = p ++ z.
Proof.
  intros Hh Hm fuel v H z s R. split; [eapply relied_key; eauto |]. split; [eapply relied_times; eauto |]. split; [eapply relied_labels; eauto |].
  destruct R as [V [K | G]].
  - apply key_sig_at in K as (_ & N1 & N2 & _). split; [congruence |]. exists []. exact N1.
  - split; [intros _; exact (proj1 (proj2 (proj1 G))) |].
    pose proof (accepted_acceptable e inp Hh Hm fuel v H) as A. apply (ac_sigs _ _ A z s V (proj1 G)).
Qed.
