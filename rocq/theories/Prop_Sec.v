(** Property C62: under keys that cannot be forged, only records which the zones have published are
    returned. The world of zones is specified in SecSpec.v. In a debug build the same, or it panics (C26). *)
From Verif Require Import Base NameM RRM SerM ValM NameSpec RecSpec ValSpec SecSpec SecP2 SecP3 ValW SecW.
From Coq Require Import String.
Local Open Scope N_scope.

(** A returned record was published by a zone whose name ends its name, as part of just that RRset, with
    at least this validity and TTL, if all zones with such names are honest: a dishonest zone can forge
    only records whose name ends in its own. *)
Theorem C62_published_partial : forall e KeyOf Honest Signed fuel inp v r, World e KeyOf Honest Signed -> Forall Held inp -> Forall fits_rr inp ->
  verify_rr_stream e false fuel inp = Ok v -> In r (vr_rrs v) -> (forall d p, rr_name r = p ++ d -> proper_name d -> Honest d) ->
  exists z p, rr_name r = p ++ z /\ proper_name z /\ Published Signed z v r.
Proof. exact only_published. Qed.
Print Assumptions C62_published_partial.
(** In particular for whatever the parser makes of a proof, in both build modes. *)
Theorem C62_proof_partial : forall e KeyOf Honest Signed dbg fuel proof inp v r, World e KeyOf Honest Signed -> is_bytes proof -> parse_rr_stream dbg proof = Ok inp ->
  verify_rr_stream e dbg fuel inp = Ok v -> In r (vr_rrs v) -> (forall d p, rr_name r = p ++ d -> proper_name d -> Honest d) ->
  exists z p, rr_name r = p ++ z /\ proper_name z /\ Published Signed z v r.
Proof. exact proof_published. Qed.
Print Assumptions C62_proof_partial.
(** An answer from a wildcard, in a world of two honest zones; another address is refused. *)
Example C62_example : World (x_env false false) x_keys (x_honest false) (x_signed false) /\ (forall d, x_honest false d) /\
  (exists v, verify_rr_stream (x_env false false) false 10 x_wild = Ok v /\ vr_rrs v = [w_a "x.a."] /\ exists z, Published (x_signed false) z v (w_a "x.a.")) /\
  verify_rr_stream (x_env false false) false 10 x_forged = Err Invalid.
Proof. exact x_example. Qed.

(** Missing: the label boundary. With all zones above ba. honest, the zone a. can still forge it. *)
Theorem C62_boundary_refuted : ~ (forall e KeyOf Honest Signed fuel inp v r, World e KeyOf Honest Signed -> Forall Held inp -> Forall fits_rr inp ->
  verify_rr_stream e false fuel inp = Ok v -> In r (vr_rrs v) -> (forall d, Subdomain (rr_name r) d -> Honest d) -> exists z, Published Signed z v r).
Proof. exact sec_boundary_refuted. Qed.
Print Assumptions C62_boundary_refuted.
Example C62_boundary_example : World (x_env false true) x_keys (x_honest true) (x_signed false) /\ (forall d, Subdomain (bs "ba.") d -> x_honest true d) /\
  exists v, verify_rr_stream (x_env false true) false 10 x_sibling = Ok v /\ vr_rrs v = [w_a "ba."].
Proof. split; [apply x_world |]. split; [exact x_sub | exact x_sibling_ok]. Qed.

(** Nor does a published RRset take precedence over a wildcard: the NSEC record of its own name is taken
    for its denial. *)
Theorem C62_exact_refuted : ~ (forall e KeyOf Honest Signed fuel inp v r z s rs, World e KeyOf Honest Signed -> (forall d, Honest d) -> SortsNeeds e -> Forall Held inp -> Forall fits_rr inp ->
  verify_rr_stream e false fuel inp = Ok v -> In r (vr_rrs v) -> Signed z s rs -> rs_name s = rr_name r -> rs_ty s = rr_ty r ->
  exists z' s' rs', Signed z' s' rs' /\ rs_name s' = rr_name r /\ In r rs').
Proof. exact sec_exact_refuted. Qed.
Print Assumptions C62_exact_refuted.
Example C62_exact_example : x_signed true (bs "a.") (x_sig "x.a." 1 2 x_key) [x_other] /\
  exists v, verify_rr_stream (x_env true false) false 10 x_shadow = Ok v /\ vr_rrs v = [w_a "x.a."].
Proof. split; [right; split; [reflexivity | right; right; left; reflexivity] | exact x_shadow_ok]. Qed.
