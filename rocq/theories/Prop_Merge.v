(** Property C75: two proofs made into one. [merged a b] has the records of both, those which are in both once. *)
From Verif Require Import Base RRM SerM ValM RecSpec ValSpec ValW AcceptSpec OrderW AcceptW MergeSpec MergeP MergeW.
From Coq Require Import String.
Local Open Scope N_scope.

(** C75. If the two agree on the RRsets signed in both, contain no signatures of zones out of their reach, and the keys of a zone
    are told apart by their tags, the merged list is accepted, gives what the two give, and is valid when both are ... *)
Theorem C75_merge_partial : forall e a b, Forall Held a -> Forall Held b -> NoDup a -> NoDup b -> NothingMore a b -> NothingMore b a ->
  OneKey (merged a b) -> (forall s, In (RR_RRSig s) (merged a b) -> ~ EmptyMaxLabels (merged a b) s) -> Tidy e a -> Tidy e b ->
  SortsNeeds e -> TwoParams e (merged a b) -> OneZone e (merged a b) ->
  forall fa va fb vb, verify_rr_stream e false fa a = Ok va -> verify_rr_stream e false fb b = Ok vb ->
  N.max (vr_valid_from va) (vr_valid_from vb) < N.min (vr_expires va) (vr_expires vb) ->
  exists fuel v, verify_rr_stream e false fuel (merged a b) = Ok v /\
    (forall r, In r (vr_rrs v) <-> In r (vr_rrs va) \/ In r (vr_rrs vb)) /\
    (vr_valid_from va <= vr_valid_from v <= N.max (vr_valid_from va) (vr_valid_from vb) /\
     N.min (vr_expires va) (vr_expires vb) <= vr_expires v <= vr_expires va /\
     N.min (vr_max_cache_ttl va) (vr_max_cache_ttl vb) <= vr_max_cache_ttl v <= vr_max_cache_ttl va) /\
    (OneKeySig (merged a b) -> vr_valid_from v = N.max (vr_valid_from va) (vr_valid_from vb) /\
      vr_expires v = N.min (vr_expires va) (vr_expires vb) /\ vr_max_cache_ttl v = N.min (vr_max_cache_ttl va) (vr_max_cache_ttl vb)).
Proof. exact merge_verdict. Qed.
Print Assumptions C75_merge_partial.

Example C75_merge_example : (NoDup o_plain /\ NoDup m_y /\ NothingMore o_plain m_y /\ NothingMore m_y o_plain /\ Tidy echo_env o_plain /\ Tidy echo_env m_y /\
  OneKey (merged o_plain m_y) /\ OneKeySig (merged o_plain m_y) /\ TwoParams echo_env (merged o_plain m_y) /\ OneZone echo_env (merged o_plain m_y) /\
  (forall s, In (RR_RRSig s) (merged o_plain m_y) -> ~ EmptyMaxLabels (merged o_plain m_y) s)) /\
  exists v, echo (merged o_plain m_y) = Ok v /\ vr_rrs v = [w_a "x.a."; w_a "y.a."].
Proof. split; [exact m_xy | exact m_xy_ok]. Qed.

(** ... but one after the other they are not accepted, not even a proof after itself: the repeated records are not what was signed; ... *)
Theorem C75_concat_refuted : ~ (forall e a fuel v, Forall Held a -> SortsNeeds e -> NoDup a -> Tidy e a -> OneKey a -> OneKeySig a -> TwoParams e a -> OneZone e a ->
  (forall s, In (RR_RRSig s) a -> ~ EmptyMaxLabels a s) -> verify_rr_stream e false fuel a = Ok v -> exists fuel' v', verify_rr_stream e false fuel' (a ++ a) = Ok v').
Proof. exact concat_refuted. Qed.
Print Assumptions C75_concat_refuted.

(** ... nor merged if an RRset was changed between the two, ... *)
Theorem C75_versions_refuted : ~ (forall e a b fa va fb vb, Forall Held a -> Forall Held b -> SortsNeeds e -> NoDup a -> NoDup b -> Tidy e a -> Tidy e b ->
  OneKey (merged a b) -> OneKeySig (merged a b) -> TwoParams e (merged a b) -> OneZone e (merged a b) ->
  (forall s, In (RR_RRSig s) (merged a b) -> ~ EmptyMaxLabels (merged a b) s) ->
  verify_rr_stream e false fa a = Ok va -> verify_rr_stream e false fb b = Ok vb ->
  N.max (vr_valid_from va) (vr_valid_from vb) < N.min (vr_expires va) (vr_expires vb) ->
  exists fuel v, verify_rr_stream e false fuel (merged a b) = Ok v).
Proof. exact versions_refuted. Qed.
Print Assumptions C75_versions_refuted.

(** ... or if one has a signature that only the other gives a meaning to, ... *)
Theorem C75_stray_refuted : ~ (forall e a b fa va fb vb, Forall Held a -> Forall Held b -> SortsNeeds e -> NoDup a -> NoDup b -> NothingMore a b -> NothingMore b a -> Tidy e b ->
  OneKey (merged a b) -> OneKeySig (merged a b) -> TwoParams e (merged a b) -> OneZone e (merged a b) ->
  (forall s, In (RR_RRSig s) (merged a b) -> ~ EmptyMaxLabels (merged a b) s) ->
  verify_rr_stream e false fa a = Ok va -> verify_rr_stream e false fb b = Ok vb ->
  N.max (vr_valid_from va) (vr_valid_from vb) < N.min (vr_expires va) (vr_expires vb) ->
  exists fuel v, verify_rr_stream e false fuel (merged a b) = Ok v).
Proof. exact stray_refuted. Qed.
Print Assumptions C75_stray_refuted.

(** ... or if they use more than two sets of NSEC3 parameters between them. *)
Theorem C75_params_refuted : ~ (forall e a b fa va fb vb, Forall Held a -> Forall Held b -> SortsNeeds e -> NoDup a -> NoDup b -> NothingMore a b -> NothingMore b a -> Tidy e a -> Tidy e b ->
  OneKey (merged a b) -> OneKeySig (merged a b) -> TwoParams e a -> TwoParams e b -> OneZone e (merged a b) ->
  (forall s, In (RR_RRSig s) (merged a b) -> ~ EmptyMaxLabels (merged a b) s) ->
  verify_rr_stream e false fa a = Ok va -> verify_rr_stream e false fb b = Ok vb ->
  N.max (vr_valid_from va) (vr_valid_from vb) < N.min (vr_expires va) (vr_expires vb) ->
  exists fuel v, verify_rr_stream e false fuel (merged a b) = Ok v).
Proof. exact params_refuted. Qed.
Print Assumptions C75_params_refuted.
