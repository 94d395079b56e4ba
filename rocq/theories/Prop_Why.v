(** Property C88: what the two errors of verification say. *)
From Verif Require Import Base NameM WireM RRM SerM ValM NameSpec RecSpec ValSpec AcceptSpec WhySpec WhyP ValW OrderW WhyW.
From Coq Require Import String.
Local Open Scope N_scope.

(** C88. [UnsupportedAlgorithm] only for a zone come to through zones in order, which lacks nothing but an implemented
    algorithm, *)
Theorem C88_unsupported_reason : forall e inp, Forall Held inp -> (forall s, In (RR_RRSig s) inp -> ~ EmptyMaxLabels inp s) ->
  forall dbg fuel, verify_rr_stream e dbg fuel inp = Err UnsupportedAlgorithm -> exists z, Arrived e inp z /\ Lacking e inp z.
Proof. exact unsup_reason. Qed.
Print Assumptions C88_unsupported_reason.
(** [Invalid] only if such a zone is broken, or all are in order and nothing is proven, or there is no time at which it is, or
    a wildcard answer is not denied. *)
Theorem C88_invalid_reason_partial : forall e inp, Forall Held inp -> (forall s, In (RR_RRSig s) inp -> ~ EmptyMaxLabels inp s) ->
  forall dbg fuel, SortsNeeds e -> TwoParams e inp -> verify_rr_stream e dbg fuel inp = Err Invalid ->
  (exists z, Arrived e inp z /\ Broken e inp z) \/ ((forall z, Visited e inp z -> Settled e inp z) /\ Unusable e inp).
Proof. exact invalid_reason. Qed.
Print Assumptions C88_invalid_reason_partial.
(** Exactly then, if there are not zones of both kinds. *)
Theorem C88_unsupported_partial : forall e inp, Forall Held inp -> (forall s, In (RR_RRSig s) inp -> ~ EmptyMaxLabels inp s) ->
  forall dbg fuel, Ends e inp dbg fuel -> (forall z, Arrived e inp z -> ~ Broken e inp z) ->
  (verify_rr_stream e dbg fuel inp = Err UnsupportedAlgorithm <-> exists z, Arrived e inp z /\ Lacking e inp z).
Proof. exact unsup_exactly. Qed.
Print Assumptions C88_unsupported_partial.
Theorem C88_invalid_partial : forall e inp, Forall Held inp -> (forall s, In (RR_RRSig s) inp -> ~ EmptyMaxLabels inp s) ->
  forall dbg fuel, SortsNeeds e -> TwoParams e inp -> OneZone e inp -> Ends e inp dbg fuel -> (forall z, Arrived e inp z -> ~ Lacking e inp z) ->
  (verify_rr_stream e dbg fuel inp = Err Invalid <->
   (exists z, Arrived e inp z /\ Broken e inp z) \/ ((forall z, Visited e inp z -> Settled e inp z) /\ Unusable e inp)).
Proof. exact invalid_exactly. Qed.
Print Assumptions C88_invalid_partial.
(** With zones of both kinds it depends on the order of the records, which one is seen first. *)
Theorem C88_unsupported_refuted : ~ (forall e inp fuel, Forall Held inp -> (forall s, In (RR_RRSig s) inp -> ~ EmptyMaxLabels inp s) ->
  SortsNeeds e -> TwoParams e inp -> OneZone e inp -> Ends e inp false fuel ->
  (exists z, Arrived e inp z /\ Lacking e inp z) -> verify_rr_stream e false fuel inp = Err UnsupportedAlgorithm).
Proof. exact unsup_refuted. Qed.
Print Assumptions C88_unsupported_refuted.
Theorem C88_invalid_refuted : ~ (forall e inp fuel, Forall Held inp -> (forall s, In (RR_RRSig s) inp -> ~ EmptyMaxLabels inp s) ->
  SortsNeeds e -> TwoParams e inp -> OneZone e inp -> Ends e inp false fuel ->
  (exists z, Arrived e inp z /\ Broken e inp z) -> verify_rr_stream e false fuel inp = Err Invalid).
Proof. exact invalid_refuted. Qed.
Print Assumptions C88_invalid_refuted.
(** And a zone whose only fault is that all its digests are SHA-384, which is not implemented, counts as broken (C28). *)
Theorem C88_sha384_refuted : ~ (forall e inp fuel z, Forall Held inp -> (forall s, In (RR_RRSig s) inp -> ~ EmptyMaxLabels inp s) -> Ends e inp false fuel ->
  Arrived e inp z -> (forall y, Arrived e inp y -> y = z \/ Settled e inp y) ->
  delegations inp z <> [] -> Forall (fun d => ds_digest_type d <> 1 /\ ds_digest_type d <> 2) (delegations inp z) ->
  verify_rr_stream e false fuel inp = Err UnsupportedAlgorithm).
Proof. exact sha384_refuted. Qed.
Print Assumptions C88_sha384_refuted.
(** A zone of each kind. *)
Example C88_example :
  (echo y_unsup = Err UnsupportedAlgorithm /\ Arrived echo_env y_unsup (bs "a.") /\ Lacking echo_env y_unsup (bs "a.")) /\
  (echo y_invalid = Err Invalid /\ Arrived echo_env y_invalid (bs "b.") /\ Broken echo_env y_invalid (bs "b.")).
Proof. exact (conj (conj y_unsup_err y_unsup_why) (conj y_invalid_err y_invalid_why)). Qed.
