(** Proofs for Prop_Revoke. *)
From Verif Require Import Base BaseP NameM WireM RRM SerM ValM NameSpec RecSpec ValSpec ValP ValP2 ValP3 AcceptSpec QueryP RevokeSpec.
Local Open Scope N_scope.

Lemma trusted_delegated e inp used z : TrustedZone e inp used z -> KeysVouched e inp used (delegations inp z) z.
Proof.
  unfold delegations. intros [H | p z0 s H1 H2 H3 H4 H5 H6].
  - exact H.
  - destruct (list_eq_dec N.eq_dec z0 [46]) as [E | _]; [contradiction | exact H6].
Qed.
Lemma key_id_flags k k0 : dk_name k = dk_name k0 -> key_id k = key_id k0 -> dk_flags k = dk_flags k0.
Proof.
  unfold key_id. intros -> E. apply app_inv_head in E. unfold u16 in E. cbn [app] in E. injection E as A B _. apply QueryP.u16_inj. unfold u16. congruence.
Qed.
Lemma vouched_alive e dbg fuel inp v : Forall Held inp -> verify_rr_stream e dbg fuel inp = Ok v ->
  forall z, Reached e inp z -> (forall d, In d (delegations inp z) -> exists k, dk_name k = z /\ ~ Revoked k /\ MadeFor e d k) ->
  VouchedAlive e inp (delegations inp z) z \/ Collision (e_sha1 e) \/ Collision (e_sha256 e).
Proof.
  intros HH H z Hz HD. destruct (verified_complete e dbg fuel inp v HH H z Hz) as (T & _). apply trusted_delegated in T as (k & s & K1 & K2 & K3 & _ & K4 & K5 & K6).
  destruct (N.testbit (dk_flags k) 7) eqn:R; [| left; exists k, s; unfold Revoked; rewrite R; repeat (split; [auto; discriminate |]); auto].
  right. destruct K2 as (d & D1 & _ & _ & D2). destruct (HD d D1) as (k0 & N0 & R0 & M2 & M1). unfold Revoked in R0.
  assert (NE : key_id k <> key_id k0).
  { intros E. apply R0. rewrite <- (key_id_flags k k0); auto. apply in_rrset in K1 as (_ & K1 & _). cbn in K1. congruence. }
  destruct D2 as [(T & D) | (T & D & _)].
  - right. exists (key_id k), (key_id k0). split; [exact NE |]. rewrite <- D. auto.
  - left. exists (key_id k), (key_id k0). split; [exact NE |]. rewrite <- D. auto.
Qed.
