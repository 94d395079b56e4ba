(** Property C55: how many zones [verify_rr_stream] visits. [Loop] is the outcome when the given number
    of zones were visited without an end. *)
From Verif Require Import Base NameM WireM RRM SerM ValM RecSpec ValSpec ValP4 VisitP ValW VisitW.
From Coq Require Import String PeanoNat.
Local Open Scope N_scope.

(** C55. At most [2 ^ k] visits, [k] the number of zones with a signed DS RRset, on the inputs for
    which there is an end at all (C25). *)
Theorem C55_bound_partial : forall e dbg inp zones,
  (forall s, In (RR_RRSig s) inp /\ rs_ty s = 43 -> rs_name s <> rs_key_name s) ->
  (forall s, In (RR_RRSig s) inp /\ rs_ty s = 43 -> In (rs_name s) zones) ->
  forall s0 n, In (RR_RRSig s0) inp /\ rs_ty s0 = 43 -> rs_key_name s0 = [46] -> supported_alg (rs_alg s0) ->
  (2 ^ List.length zones <= n)%nat -> verify_rr_stream e dbg n inp <> Loop.
Proof. exact visits_bound. Qed.
Print Assumptions C55_bound_partial.
(** Missing: the linear bound, even with one more visit for the root. *)
Theorem C55_visits_refuted : ~ (forall e inp zones s0, Forall Held inp ->
  (forall s, In (RR_RRSig s) inp /\ rs_ty s = 43 -> rs_name s <> rs_key_name s) ->
  (forall s, In (RR_RRSig s) inp /\ rs_ty s = 43 -> In (rs_name s) zones) ->
  In (RR_RRSig s0) inp /\ rs_ty s0 = 43 -> rs_key_name s0 = [46] -> supported_alg (rs_alg s0) ->
  verify_rr_stream e false (S (List.length zones)) inp <> Loop).
Proof. exact linear_visits_refuted. Qed.
Print Assumptions C55_visits_refuted.
(** The bound is reached: [n] zones nested in one another, each signed by all those above it, need
    exactly [2 ^ n] visits before the (successful) end, with about [n * n / 2] records. *)
Theorem C55_exponential : forall n, (1 <= n <= 127)%nat ->
  Forall Held (nest n) /\ (2 * List.length (nest n) = n * n + 7 * n + 8)%nat /\
  verify_rr_stream toy_env false (2 ^ n - 1) (nest n) = Loop /\
  exists v, verify_rr_stream toy_env false (2 ^ n) (nest n) = Ok v /\ vr_rrs v = [w_a "x."].
Proof. exact visits_exponential. Qed.
Print Assumptions C55_exponential.
(** The hypotheses of the bound hold of that family. *)
Example C55_example : (forall s, In (RR_RRSig s) (nest 3) /\ rs_ty s = 43 -> rs_name s <> rs_key_name s) /\
  (forall s, In (RR_RRSig s) (nest 3) /\ rs_ty s = 43 -> In (rs_name s) [bs "a."; bs "a.a."; bs "a.a.a."]) /\
  (verify_rr_stream toy_env false 7 (nest 3) = Loop /\ verify_rr_stream toy_env false 8 (nest 3) <> Loop).
Proof.
  split; [exact (nest_no_self 3) |]. split; [exact (nest_in_zones 3) |]. split; vm_compute; [reflexivity | discriminate].
Qed.
