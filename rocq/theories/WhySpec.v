(** Specification of what the two errors of [verify_rr_stream] say. *)
From Verif Require Import Base RRM ValM NameSpec ValSpec AcceptSpec.
Local Open Scope N_scope.

Section Why.
  Variable e : env.
  Variable inp : list RR.

  (** The zone is in order: its keys are trusted, and each of its signatures is valid, or passed over
      because of its algorithm. *)
  Definition Settled (z : list N) : Prop :=
    (exists k, KeySig e inp z k) /\
    forall s, ZoneSig inp z s -> (exists p, rs_name s = p ++ z) /\ (PassedSig inp z s \/ (GoodSig e inp z s /\ Fits s)).

  (** The zones come to from the root through zones which are in order. *)
  Inductive Arrived : list N -> Prop :=
  | Ar_root : Arrived [46]
  | Ar_child z s : Arrived z -> Settled z -> GoodSig e inp z s -> rs_ty s = 43 -> Arrived (rs_name s).

  (** The digest types SHA-1, SHA-256 and SHA-384. *)
  Definition known_digest (d : ds) : Prop := ds_digest_type d = 1 \/ ds_digest_type d = 2 \/ ds_digest_type d = 4.

  (** All the zone lacks is an algorithm which is implemented: its DS records have other digests, or all
      RRSIGs over its DNSKEYs are, but for the signature itself, in order and of another algorithm. *)
  Definition Lacking (z : list N) : Prop :=
    (delegations inp z <> [] /\ Forall (fun d => ~ known_digest d) (delegations inp z)) \/
    ((exists d, In d (delegations inp z) /\ known_digest d) /\ sigs_over inp z 48 <> [] /\
     Forall (fun s => UnknownSig (DelegatedKey e (delegations inp z)) (keys_at inp z) s (rrset inp z 48)) (sigs_over inp z 48)).

  (** Neither. *)
  Definition Broken (z : list N) : Prop := ~ Settled z /\ ~ Lacking z.

  (** With all zones in order there may still be no record, no time, or no denial for a wildcard answer. *)
  Definition Unusable : Prop :=
    (forall r, ~ Proven e inp r) \/
    (exists a b, Used e inp a /\ Used e inp b /\ resolve_time (rs_expiration b) <= resolve_time (rs_inception a)) \/
    (exists z nc ty, NeedsDenial e inp z nc ty /\ ~ DeniedUnder e inp z nc ty).
  (** Verification comes to an end with a verdict: no endless loop (C25) and no panic (C26). *)
  Definition Ends (dbg : bool) (fuel : nat) : Prop := verify_rr_stream e dbg fuel inp <> Loop /\ verify_rr_stream e dbg fuel inp <> Panic.
End Why.
