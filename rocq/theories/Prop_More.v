(** Property C85: a proof with records added to it. *)
From Verif Require Import Base NameM WireM RRM SerM ValM NameSpec RecSpec ValSpec AcceptSpec MoreSpec MoreP ValW OrderW MoreW.
From Coq Require Import String.
Local Open Scope N_scope.

(** C85. Whatever is added to a stream, wherever: if both are accepted, nothing verified has gone. *)
Theorem C85_records : forall e dbg fuel fuel' inp inp' v v', Forall Held inp' -> incl inp inp' ->
  verify_rr_stream e dbg fuel inp = Ok v -> verify_rr_stream e dbg fuel' inp' = Ok v' -> incl (vr_rrs v) (vr_rrs v').
Proof. exact more_records. Qed.
Print Assumptions C85_records.
(** Nor has an answer, if no CNAME or DNAME record was added. *)
Theorem C85_answers : forall e dbg fuel fuel' inp inp' v v', Forall Held inp' -> incl inp inp' ->
  verify_rr_stream e dbg fuel inp = Ok v -> verify_rr_stream e dbg fuel' inp' = Ok v' -> aliases (vr_rrs v) = aliases (vr_rrs v') ->
  forall f nm a, resolve_name (vr_rrs v) f nm = Ok a -> exists a', resolve_name (vr_rrs v') f nm = Ok a' /\ incl a a'.
Proof. exact more_answers. Qed.
Print Assumptions C85_answers.
(** And no more time is given to use the records, unless signatures over keys have been put before others. *)
Theorem C85_window_partial : forall e fuel fuel' inp inp' v v', Forall Held inp' -> (forall s, In (RR_RRSig s) inp' -> ~ EmptyMaxLabels inp' s) ->
  incl inp inp' -> KeySigsKept inp inp' ->
  verify_rr_stream e false fuel inp = Ok v -> verify_rr_stream e false fuel' inp' = Ok v' -> NoLonger v v'.
Proof. exact more_window. Qed.
Print Assumptions C85_window_partial.
Theorem C85_window_refuted : ~ (forall e fuel inp inp' v v', Forall Held inp' -> (forall s, In (RR_RRSig s) inp' -> ~ EmptyMaxLabels inp' s) ->
  incl inp inp' ->
  verify_rr_stream e false fuel inp = Ok v -> verify_rr_stream e false fuel inp' = Ok v' -> NoLonger v v').
Proof. exact window_refuted. Qed.
Print Assumptions C85_window_refuted.
Example C85_example :
  (Forall Held m_more /\ (forall s, In (RR_RRSig s) m_more -> ~ EmptyMaxLabels m_more s) /\ incl o_plain m_more /\ KeySigsKept o_plain m_more) /\
  (exists v, echo o_plain = Ok v /\ vr_rrs v = [w_a "x.a."] /\ vr_valid_from v = 1000000000 /\ vr_expires v = 2000000000 /\ vr_max_cache_ttl v = 3600) /\
  (exists v, echo m_more = Ok v /\ vr_rrs v = [w_a "x.a."; w_a "y.a."] /\ resolve_name (vr_rrs v) 5 (bs "x.a.") = Ok [w_a "x.a."] /\ vr_valid_from v = 1100000000 /\ vr_expires v = 1900000000 /\ vr_max_cache_ttl v = 60).
Proof. exact (conj (conj m_more_held (conj m_more_max m_more_kept)) (conj m_plain_ok m_more_ok)). Qed.
