(** Properties C31 (the whole verdict), C56, C59: order, repetition and irrelevance of input records. *)
From Verif Require Import Base NameM WireM RRM SerM ValM NameSpec RecSpec ValSpec OrderSpec OrderP DupP ValW OrderW.
From Coq Require Import String Permutation.
Local Open Scope N_scope.

(** C31. The records may be moved around freely if RRSIGs and DNSKEYs keep their order, and, when
    wildcard answers occur, they are all signed by one zone and only NSEC records deny. *)
Theorem C31_verdict_order_partial : forall e dbg fuel inp inp', Forall Held inp -> SortsNeeds e ->
  Permutation inp inp' -> sigs_of inp = sigs_of inp' -> keys_of inp = keys_of inp' ->
  (forall s s', In (RR_RRSig s) inp -> In (RR_RRSig s') inp -> Expanded s ->
     rs_ty s' <> 50 /\ (Expanded s' -> rs_key_name s' = rs_key_name s)) ->
  SameVerdict (verify_rr_stream e dbg fuel inp) (verify_rr_stream e dbg fuel inp').
Proof. exact verdict_order. Qed.
Print Assumptions C31_verdict_order_partial.
Example C31_verdict_example :
  (Forall Held o_wild /\ SortsNeeds echo_env /\ Permutation o_wild o_wild' /\ sigs_of o_wild = sigs_of o_wild' /\ keys_of o_wild = keys_of o_wild') /\
  (forall s s', In (RR_RRSig s) o_wild -> In (RR_RRSig s') o_wild -> Expanded s ->
     rs_ty s' <> 50 /\ (Expanded s' -> rs_key_name s' = rs_key_name s)) /\
  (exists v, echo o_wild = Ok v /\ vr_rrs v = [w_a "x.a."]) /\ (exists v, echo o_wild' = Ok v /\ vr_rrs v = [w_a "x.a."]).
Proof.
  split; [split; [exact o_wild_held |]; split; [exact echo_sorts |]; split; [exact o_wild_perm |]; split; reflexivity |].
  split; [exact o_wild_hyp |]. split; eexists; split; vm_compute; reflexivity.
Qed.

(** C56. An RRSIG may be repeated (if it is not over a wildcard answer) ... *)
Theorem C56_repeated_rrsig_partial : forall e fuel a s b, Held (RR_RRSig s) -> ~ Expanded s -> In (RR_RRSig s) a ->
  verify_rr_stream e false fuel (a ++ RR_RRSig s :: b) = verify_rr_stream e false fuel (a ++ b).
Proof. exact rrsig_repeated. Qed.
Print Assumptions C56_repeated_rrsig_partial.
(** ... but no signed record may: the signature is checked over both copies. *)
Theorem C56_repeated_record_refuted : ~ (forall e fuel inp r, Forall Held inp -> In r inp ->
  SameVerdict (verify_rr_stream e false fuel inp) (verify_rr_stream e false fuel (inp ++ [r]))).
Proof. exact repeated_refuted. Qed.
Print Assumptions C56_repeated_record_refuted.
(** For instance the NSEC of a wildcard answer, which a resolver returns with each such answer. *)
Example C56_example : (exists v, echo o_wild = Ok v /\ vr_rrs v = [w_a "x.a."]) /\ echo (o_wild ++ [o_nsec]) = Err Invalid /\
  (exists v, echo (o_plain ++ [o_sig "x.a." 1 2 "a." [w_a "x.a."]]) = Ok v /\ vr_rrs v = [w_a "x.a."]) /\
  ~ Expanded (o_rrsig "x.a." 1 2 "a." [w_a "x.a."]).
Proof.
  split; [eexists; split; vm_compute; reflexivity |]. split; [vm_compute; reflexivity |]. split; [eexists; split; vm_compute; reflexivity |].
  apply (not_expanded _ [[120]; [97]]); [| reflexivity]. split; [reflexivity |]. split; [| discriminate]. repeat constructor; cbn; try Lia.lia; intuition discriminate.
Qed.

(** C59. A record without an RRSIG for its name and type, wherever it is put, changes nothing. *)
Theorem C59_unsigned_ignored : forall e dbg fuel a r b, rr_ty r <> 46 ->
  (forall s, In (RR_RRSig s) (a ++ b) -> rs_ty s = rr_ty r -> rs_name s <> rr_name r) ->
  verify_rr_stream e dbg fuel (a ++ r :: b) = verify_rr_stream e dbg fuel (a ++ b).
Proof. exact unsigned_ignored. Qed.
Print Assumptions C59_unsigned_ignored.
(** Forged A, DNSKEY and DS records for names nobody signed. *)
Example C59_example : echo (w_a "y.a." :: w_key "b." :: o_plain ++ [w_ds "b."]) = echo o_plain /\ exists v, echo o_plain = Ok v /\ vr_rrs v = [w_a "x.a."].
Proof. split; [vm_compute; reflexivity | exact o_plain_ok]. Qed.
