(** From the octets of a proof. *)
From Verif Require Import Base RRM SerM ValM NameSpec RecSpec ValSpec HeldP SecSpec SecP2 DbgP.
Local Open Scope N_scope.

Lemma proof_published e KeyOf Honest Signed dbg fuel proof inp v r : World e KeyOf Honest Signed -> is_bytes proof ->
  parse_rr_stream dbg proof = Ok inp -> verify_rr_stream e dbg fuel inp = Ok v -> In r (vr_rrs v) ->
  (forall d p, rr_name r = p ++ d -> proper_name d -> Honest d) ->
  exists z p, rr_name r = p ++ z /\ proper_name z /\ Published Signed z v r.
Proof.
  intros W B P V I H. apply (only_published e KeyOf Honest Signed fuel inp v r); auto.
  - eapply parsed_held; eauto.
  - eapply parsed_fits; eauto.
  - eapply verify_release; eauto.
Qed.
