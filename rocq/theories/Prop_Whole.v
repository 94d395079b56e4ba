(** Property C91: the verdict on a proof as octets. The specification is WholeSpec.v: the chain of trust of C60 with the signatures of C89. *)
From Verif Require Import Base RRM SerM ValM NameSpec RecSpec ValSpec OrderW CanonSpec WholeSpec WholeP WholeW ValW.
From Coq Require Import String.
Local Open Scope N_scope.

(** C91. Every stream of records as the RFCs allow them says something, *)
Theorem C91_reads : forall ws, Forall LegalRecord ws -> exists inp, Forall2 Reads ws inp.
Proof. exact whole_reads. Qed.
Print Assumptions C91_reads.
(** and is parsed as that and accepted if and only if the chain of trust from the root holds with the signatures of RFC 4034 over its
    octets, and wildcard answers are denied: given what C89 and C60 show to be necessary (Tidy; two sets of NSEC3 parameters; one zone
    for each denial). *)
Theorem C91_exact_partial : forall dbg e ws inp, Forall LegalRecord ws -> Forall2 Reads ws inp -> Tidy ws inp -> SortsNeeds e -> WTwoParams e ws inp -> WOneZone e ws inp ->
  parse_rr_stream dbg (List.concat (map wr_octets ws)) = Ok inp /\ ((exists fuel v, verify_rr_stream e dbg fuel inp = Ok v) <-> WAcceptable e ws inp /\ WDenials e ws inp).
Proof. exact whole_exact. Qed.
Print Assumptions C91_exact_partial.
(** Without these the statement fails: two strings of a TXT record are taken for one which was signed. *)
Theorem C91_exact_refuted : ~ (forall e ws inp, Forall LegalRecord ws -> Forall2 Reads ws inp -> SortsNeeds e -> WTwoParams e ws inp -> WOneZone e ws inp ->
  ((exists fuel v, verify_rr_stream e false fuel inp = Ok v) <-> WAcceptable e ws inp /\ WDenials e ws inp)).
Proof. exact strings_refuted. Qed.
Print Assumptions C91_exact_refuted.
(** Whatever is accepted, without the last two conditions, is acceptable; *)
Theorem C91_necessary_partial : forall dbg e ws inp fuel v, Forall LegalRecord ws -> Forall2 Reads ws inp -> Tidy ws inp -> verify_rr_stream e dbg fuel inp = Ok v -> WAcceptable e ws inp.
Proof. exact whole_necessary. Qed.
Print Assumptions C91_necessary_partial.
(** and the result is the records proven, but for NSEC and NSEC3, with the window and TTL of the signatures used. *)
Theorem C91_result_partial : forall dbg e ws inp fuel v, Forall LegalRecord ws -> Forall2 Reads ws inp -> Tidy ws inp -> verify_rr_stream e dbg fuel inp = Ok v ->
  (forall r, In r (vr_rrs v) <-> WProven e ws inp r /\ rr_ty r <> 47 /\ rr_ty r <> 50) /\
  exists used, (forall s, In s used <-> WUsed e ws inp s) /\
    is_max (vr_valid_from v) (map (fun s => resolve_time (rs_inception s)) used) /\
    is_min (vr_expires v) (map (fun s => resolve_time (rs_expiration s)) used) /\ is_min (vr_max_cache_ttl v) (map rs_orig_ttl used).
Proof. exact whole_result. Qed.
Print Assumptions C91_result_partial.
(** A wildcard answer with owners in mixed case, and its denial. *)
Example C91_example : Forall LegalRecord h_wire /\ Forall2 Reads h_wire o_wild /\ Tidy h_wire o_wild /\
  (WTwoParams echo_env h_wire o_wild /\ WOneZone echo_env h_wire o_wild /\ WAcceptable echo_env h_wire o_wild /\ WDenials echo_env h_wire o_wild) /\
  parse_rr_stream true h_octets = Ok o_wild /\ exists v, echo o_wild = Ok v /\ vr_rrs v = [w_a "x.a."].
Proof. exact (conj h_legal (conj h_reads (conj h_tidy (conj h_accepted (conj h_parse h_ok))))). Qed.
