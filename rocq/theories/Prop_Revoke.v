(** Property C84: keys with the REVOKE flag of RFC 5011. *)
From Verif Require Import Base NameM WireM RRM SerM ValM NameSpec RecSpec ValSpec AcceptSpec RevokeSpec RevokeP ValW ValW2 RevokeW.
From Coq Require Import String.
Local Open Scope N_scope.

(** C84. A revoked key vouches for the DNSKEY RRset of no zone whose DS records (for the root: the trust
    anchors) were made for keys before they were revoked, or else a collision of the hash functions is at hand. *)
Theorem C84_vouching_partial : forall e dbg fuel inp v, Forall Held inp -> verify_rr_stream e dbg fuel inp = Ok v ->
  forall z, Reached e inp z -> (forall d, In d (delegations inp z) -> exists k, dk_name k = z /\ ~ Revoked k /\ MadeFor e d k) ->
  VouchedAlive e inp (delegations inp z) z \/ Collision (e_sha1 e) \/ Collision (e_sha256 e).
Proof. exact vouched_alive. Qed.
Print Assumptions C84_vouching_partial.
(** But a signature by a revoked key of the zone is enough for all other records: the flag is not looked at. *)
Theorem C84_signing_refuted : ~ (forall e dbg fuel inp v, Forall Held inp -> SortsNeeds e -> verify_rr_stream e dbg fuel inp = Ok v ->
  forall r, In r (vr_rrs v) -> SignedAlive e inp r).
Proof. exact revoked_refuted. Qed.
Print Assumptions C84_signing_refuted.
Example C84_example :
  (Forall Held rv_good /\ exists v, verify_rr_stream rv_env false 10 rv_good = Ok v /\ vr_rrs v = [w_a "x.a."]) /\
  (Reached rv_env rv_good [46] /\ Reached rv_env rv_good (bs "a.")) /\
  (forall z, z = [46] \/ z = bs "a." -> forall d, In d (delegations rv_good z) -> exists k, dk_name k = z /\ ~ Revoked k /\ MadeFor rv_env d k) /\
  (~ Collision (e_sha1 rv_env) /\ ~ Collision (e_sha256 rv_env)) /\
  (Revoked rv_key /\ ~ Revoked (key_of "a.")) /\
  exists v, verify_rr_stream rv_env false 10 rv_bad = Ok v /\ vr_rrs v = [w_a "x.a."].
Proof. exact (conj (conj rv_good_held rv_good_ok) (conj rv_reached (conj rv_made (conj rv_no_collision (conj rv_revoked rv_bad_ok))))). Qed.
