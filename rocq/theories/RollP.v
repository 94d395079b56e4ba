(** Proofs for C86. *)
From Verif Require Import Base BaseP NameM WireM RRM ValM NameSpec RecSpec ValSpec ValP ValP2 ValP3 OrdP OrdRR OrderSpec OrderP AcceptSpec AcceptP AcceptP2 AcceptP3 AcceptP4 AcceptP5 RollSpec.
From Coq Require Import Permutation.
Local Open Scope N_scope.

Lemma first_valid (U V : rrsig -> Prop) l : (exists s, In s l /\ V s) -> (forall s, In s l -> V s \/ U s) ->
  exists s pre post, l = pre ++ s :: post /\ Forall U pre /\ V s.
Proof.
  induction l as [| x l IH]; intros (s & Hs & Vs) H; [contradiction |].
  assert (D : V x \/ (U x /\ In s l)). { destruct Hs as [-> | Hs]; [left; exact Vs |]. destruct (H x (or_introl eq_refl)); auto. }
  destruct D as [D | [D I]]; [exists x, [], l; auto |].
  destruct IH as (y & pre & post & -> & F & Vy); [exists s; auto | intros; apply H; right; assumption |]. exists y, (x :: pre), post. auto.
Qed.

Lemma valid_ext e P Q keys s rs : (forall x, P x <-> Q x) -> ValidSig e P keys s rs -> ValidSig e Q keys s rs.
Proof. intros H (X1 & k & msg & X2 & X3). split; [exact X1 |]. exists k, msg. split; [eapply chosen_ext; eauto | exact X3]. Qed.
Lemma unknown_ext P Q keys s rs : (forall x, P x <-> Q x) -> UnknownSig P keys s rs -> UnknownSig Q keys s rs.
Proof. intros H (X1 & X0 & k & msg & X2 & X3). split; [exact X1 |]. split; [exact X0 |]. exists k, msg. split; [eapply chosen_ext; eauto | exact X3]. Qed.

Lemma rolled_any_order e inp : Forall Held inp -> SortsNeeds e -> OneKey inp -> AllVouched e inp -> AllCurrent e inp ->
  (forall s, In (RR_RRSig s) inp -> ~ EmptyMaxLabels inp s) -> TwoParams e inp -> OneZone e inp ->
  forall fuel v, verify_rr_stream e false fuel inp = Ok v -> AnyOrder e inp v.
Proof.
  intros Hh HSo OK AV AC Hm Ht Ho fuel v H inp' HP. assert (HP' := Permutation_sym HP).
  assert (K1 : same_keys inp inp') by (apply one_key_same; assumption).
  assert (K2 : same_keys inp' inp) by (apply one_key_same; [| eapply one_key_perm]; eassumption).
  pose proof (accepted_acceptable e inp Hh Hm fuel v H) as A. pose proof (accepted_denials e inp Hh Hm fuel v HSo Ho H) as D.
  assert (Hh' : Forall Held inp') by (eapply Permutation_Forall; eauto).
  assert (Hm' : forall s, In (RR_RRSig s) inp' -> ~ EmptyMaxLabels inp' s).
  { intros s Hs (B1 & B2). apply (in_perm inp inp' HP) in Hs. apply (Hm s Hs). unfold EmptyMaxLabels. split; [| exact B2].
    pose proof (rrset_perm inp inp' HP (rs_name s) (rs_ty s)) as G. rewrite B1 in G. apply Permutation_sym, Permutation_nil in G. exact G. }
  assert (Ht' : TwoParams e inp').
  { intros z nc ty Hn. apply (needs_perm e inp' inp HP' K2) in Hn. destruct (Ht z nc ty Hn) as (p & q & Hpq). exists p, q. intros n pre Hp. apply Hpq. apply (proven_perm e inp' inp HP' K2). exact Hp. }
  assert (SO : forall z s, In s (sigs_over inp z 48) <-> In s (sigs_over inp' z 48)).
  { intros z s. rewrite !in_sigs_over, (in_perm inp inp' HP). reflexivity. }
  assert (US : forall s, Used e inp' s -> Relied e inp s).
  { intros s (z & Hz & G). apply (visited_perm e inp' inp HP' K2) in Hz. destruct G as [(pre & post & G & _) | G].
    - right. exists z. split; [exact Hz |]. apply SO. rewrite G. apply in_or_app. right. left. reflexivity.
    - left. exists z. split; [exact Hz |]. right. apply (good_perm e inp' inp HP' K2). exact G. }
  destruct (acceptable_accepted e inp' Hh' Hm' HSo Ht') as (fuel' & v' & H').
  { destruct A as [A1 A2 A3 A4 A5 A6]. constructor.
    - intros z Hz. apply (visited_perm e inp' inp HP' K2) in Hz. destruct (A1 z Hz) as (s & pre & post & Es & _ & Vs). apply first_valid.
      + exists s. split; [apply SO; rewrite Es; apply in_or_app; right; left; reflexivity |].
        eapply valid_ext; [intros; apply (delegated_perm e inp inp' HP) | apply (valid_perm e inp inp'); assumption].
      + intros x Hx. apply SO in Hx. destruct (AV z x Hz Hx) as [G | G]; [left | right].
        * eapply valid_ext; [intros; apply (delegated_perm e inp inp' HP) | apply (valid_perm e inp inp'); assumption].
        * eapply unknown_ext; [intros; apply (delegated_perm e inp inp' HP) | apply (unknown_perm inp inp'); assumption].
    - intros z s Hz Hs. apply (visited_perm e inp' inp HP' K2) in Hz. apply (zonesig_perm inp' inp HP') in Hs. destruct (A2 z s Hz Hs) as [B1 [B2 | [B2 B3]]]; (split; [exact B1 |]).
      + left. apply (passed_perm inp inp'); assumption.
      + right. split; [apply (good_perm e inp inp'); assumption | exact B3].
    - destruct A3 as (r & Hr). exists r. apply (proven_perm e inp inp'); assumption.
    - destruct A4 as (s & Hs & T). exists s. split; [apply (good_perm e inp inp'); assumption | exact T].
    - intros z s Hz Hs. apply (visited_perm e inp' inp HP' K2) in Hz. apply (good_perm e inp' inp HP' K2) in Hs. apply (A5 z s Hz Hs).
    - intros a b Ha Hb. apply AC; apply US; assumption. }
  { intros z nc ty Hn. apply (needs_perm e inp' inp HP' K2) in Hn. apply (denied_perm e inp inp'); auto. }
  exists fuel', v'. split; [exact H' |].
  destruct (accepted_result e inp Hh fuel v H) as [R _]. destruct (accepted_result e inp' Hh' fuel' v' H') as [R' _].
  apply NoDup_Permutation; [eapply verified_input; [exact Hh | exact H] | eapply verified_input; [exact Hh' | exact H'] |].
  intros r. rewrite R, R'. split; intros [B1 B2]; (split; [| exact B2]); eapply proven_perm; eauto.
Qed.
