(** Property C73: checking the reported window against a clock, as the documentation asks of the caller. [Current] is RFC 4034
    section 3.1.5 with the serial numbers of RFC 1982. *)
From Verif Require Import Base RRM SerM ValM RecSpec ValSpec ValW TimeSpec ClockSpec ClockP ClockW.
From Coq Require Import String.
Local Open Scope N_scope.

(** C73. A record accepted when the clock shows a time in the window is authenticated by signatures all of which may be used at
    that time, if the signatures have periods RFC 4034 can express ... *)
Theorem C73_current_partial : forall e dbg fuel inp v, Forall Held inp -> verify_rr_stream e dbg fuel inp = Ok v ->
  forall now, (forall s, In (RR_RRSig s) inp -> Expressible s) -> vr_valid_from v <= now <= vr_expires v ->
  (now < 2 ^ 32 - 1 \/ vr_valid_from v < now) ->
  forall r, In r (vr_rrs v) -> Authentic e inp (Current now) r.
Proof. exact window_current. Qed.
Print Assumptions C73_current_partial.
(** ... but not if they have longer ones, ... *)
Theorem C73_current_refuted : ~ (forall e dbg fuel inp v now, Forall Held inp -> verify_rr_stream e dbg fuel inp = Ok v ->
  vr_valid_from v <= now <= vr_expires v -> (now < 2 ^ 32 - 1 \/ vr_valid_from v < now) ->
  forall r, In r (vr_rrs v) -> Authentic e inp (Current now) r).
Proof. exact span_refuted. Qed.
Print Assumptions C73_current_refuted.
(** ... and, from 2106, not in the first second of the window. *)
Theorem C73_second_refuted : ~ (forall e dbg fuel inp v now, Forall Held inp -> verify_rr_stream e dbg fuel inp = Ok v ->
  (forall s, In (RR_RRSig s) inp -> Expressible s) -> vr_valid_from v <= now <= vr_expires v ->
  forall r, In r (vr_rrs v) -> Authentic e inp (Current now) r).
Proof. exact second_refuted. Qed.
Print Assumptions C73_second_refuted.

(** Until 2106 the window consists of exactly the instants at which all signatures relied on may be used, their times being read
    as instants of the 136 years from the cutoff. *)
Theorem C73_exact : forall e dbg fuel inp v, Forall Held inp -> verify_rr_stream e dbg fuel inp = Ok v ->
  exists used, used <> [] /\ (forall s, In s used -> In (RR_RRSig s) inp /\
      exists z k, TrustedZone e inp (fun x => In x used) z /\ In (RR_DnsKey k) (rrset inp z 48) /\
        SigBy e k s (rrset inp (rs_name s) (rs_ty s))) /\
    (forall r, In r (vr_rrs v) -> Authentic e inp (fun x => In x used) r) /\
    forall now, now < 2 ^ 32 - 1 -> (vr_valid_from v <= now <= vr_expires v <-> forall s, In s used -> Within now s).
Proof. exact window_exact. Qed.
Print Assumptions C73_exact.
(** Signatures which begin before and end after the wrap of 2106, and a clock after it. *)
Example ex_C73 : exists v, Forall Held (c_plain 4294967000 1000) /\ verify_rr_stream toy_env false 10 (c_plain 4294967000 1000) = Ok v /\
  (forall s, In (RR_RRSig s) (c_plain 4294967000 1000) -> Expressible s) /\ In (w_a "x.a.") (vr_rrs v) /\
  vr_valid_from v <= 2 ^ 32 + 300 <= vr_expires v /\ vr_valid_from v < 2 ^ 32 + 300.
Proof. exact clock_example. Qed.
