(** Property C79: RRsets can be left out of a proof. [trimmed D inp] is without the RRsets of [D] and the signatures over them. *)
From Verif Require Import Base RRM SerM ValM RecSpec ValSpec ValW AcceptSpec OrderW TrimSpec TrimP TrimW.
From Coq Require Import String.
Local Open Scope N_scope.

(** C79. Any RRsets other than DS, NSEC, DNSKEY and NSEC3 can be left out, with their signatures: as long as something verified is
    left, the remaining proof is accepted, gives exactly what is left, and is valid at least as long ... *)
Theorem C79_leaves : forall e inp D, (forall n, D n 48 = false) -> Forall Held inp -> (forall s, In (RR_RRSig s) inp -> ~ EmptyMaxLabels inp s) ->
  SortsNeeds e -> TwoParams e inp -> forall fuel v, verify_rr_stream e false fuel inp = Ok v ->
  OneZone e inp -> (forall n, D n 43 = false) -> (forall n, D n 47 = false) -> (forall n, D n 50 = false) ->
  (exists r, In r (vr_rrs v) /\ D (rr_name r) (rr_ty r) = false) ->
  exists fuel' v', verify_rr_stream e false fuel' (trimmed D inp) = Ok v' /\
    (forall r, In r (vr_rrs v') <-> In r (vr_rrs v) /\ D (rr_name r) (rr_ty r) = false) /\
    vr_valid_from v' <= vr_valid_from v /\ vr_expires v <= vr_expires v' /\ vr_max_cache_ttl v <= vr_max_cache_ttl v'.
Proof. exact trim_leaves. Qed.
Print Assumptions C79_leaves.

Example C79_leaves_example : (TwoParams echo_env t_xy /\ OneZone echo_env t_xy /\ (forall s, In (RR_RRSig s) t_xy -> ~ EmptyMaxLabels t_xy s)) /\
  (exists v, echo t_xy = Ok v /\ vr_rrs v = [w_a "x.a."; w_a "y.a."]) /\
  (exists v, echo (trimmed (only (bs "x.a.") 1) t_xy) = Ok v /\ vr_rrs v = [w_a "y.a."]).
Proof. split; [exact t_xy_hyps | exact t_xy_ok]. Qed.

(** ... delegations and denials can be left out too, if the root still delegates and the names still to be denied still are: ... *)
Theorem C79_any : forall e inp D, (forall n, D n 48 = false) -> Forall Held inp -> (forall s, In (RR_RRSig s) inp -> ~ EmptyMaxLabels inp s) ->
  SortsNeeds e -> TwoParams e inp -> forall fuel v, verify_rr_stream e false fuel inp = Ok v ->
  (exists r, Proven e (trimmed D inp) r) -> (exists s, GoodSig e (trimmed D inp) [46] s /\ rs_ty s = 43) -> Denials e (trimmed D inp) ->
  exists fuel' v', verify_rr_stream e false fuel' (trimmed D inp) = Ok v'.
Proof. exact trim_any. Qed.
Print Assumptions C79_any.

(** ... a trimmed proof which is accepted says nothing new, and is valid at least as long. *)
Theorem C79_nothing_new : forall e inp D, (forall n, D n 48 = false) -> Forall Held inp -> (forall s, In (RR_RRSig s) inp -> ~ EmptyMaxLabels inp s) ->
  forall fuel v, verify_rr_stream e false fuel inp = Ok v -> forall fuel' v', verify_rr_stream e false fuel' (trimmed D inp) = Ok v' ->
  (forall r, In r (vr_rrs v') -> In r (vr_rrs v) /\ D (rr_name r) (rr_ty r) = false) /\
  vr_valid_from v' <= vr_valid_from v /\ vr_expires v <= vr_expires v' /\ vr_max_cache_ttl v <= vr_max_cache_ttl v'.
Proof. exact trim_narrow. Qed.
Print Assumptions C79_nothing_new.

(** The zone b. left out, its keys remaining. *)
Example C79_any_example : (Forall Held t_two /\ TwoParams echo_env t_two /\ (forall s, In (RR_RRSig s) t_two -> ~ EmptyMaxLabels t_two s) /\ (forall n, t_drop n 48 = false) /\
  (exists r, Proven echo_env (trimmed t_drop t_two) r) /\ (exists s, GoodSig echo_env (trimmed t_drop t_two) [46] s /\ rs_ty s = 43) /\ Denials echo_env (trimmed t_drop t_two)) /\
  (exists v, echo t_two = Ok v /\ vr_rrs v = [w_a "x.b."; w_a "x.a."]) /\ (exists v, echo (trimmed t_drop t_two) = Ok v /\ vr_rrs v = [w_a "x.a."]).
Proof. split; [exact t_two_hyps | exact t_two_ok]. Qed.

(** Without the NSEC records a proof may fail, ... *)
Theorem C79_denial_refuted : ~ (forall e inp D fuel v, Forall Held inp -> SortsNeeds e -> TwoParams e inp -> OneZone e inp -> (forall s, In (RR_RRSig s) inp -> ~ EmptyMaxLabels inp s) ->
  (forall n, D n 48 = false) -> (forall n, D n 43 = false) -> (forall n, D n 50 = false) ->
  verify_rr_stream e false fuel inp = Ok v -> (exists r, In r (vr_rrs v) /\ D (rr_name r) (rr_ty r) = false) ->
  exists fuel' v', verify_rr_stream e false fuel' (trimmed D inp) = Ok v').
Proof. exact denial_refuted. Qed.
Print Assumptions C79_denial_refuted.

(** ... and without the delegations of the root, even if all that is wanted are records of the root. *)
Theorem C79_delegation_refuted : ~ (forall e inp D fuel v, Forall Held inp -> SortsNeeds e -> TwoParams e inp -> OneZone e inp -> (forall s, In (RR_RRSig s) inp -> ~ EmptyMaxLabels inp s) ->
  (forall n, D n 48 = false) -> (forall n, D n 47 = false) -> (forall n, D n 50 = false) ->
  verify_rr_stream e false fuel inp = Ok v -> (exists r, Proven e (trimmed D inp) r) ->
  exists fuel' v', verify_rr_stream e false fuel' (trimmed D inp) = Ok v').
Proof. exact delegation_refuted. Qed.
Print Assumptions C79_delegation_refuted.
