(** Property C83: records at a wildcard name, asked for by that name. *)
From Verif Require Import Base NameM WireM RRM SerM ValM NameSpec RecSpec ValSpec AcceptSpec StarSpec StarP ValW OrderW StarW.
From Coq Require Import String.
Local Open Scope N_scope.

(** C83. A stream in which only the names that wildcards were expanded to are denied should be accepted:
    records at a wildcard name itself exist, and their denial is not to be asked for. It is accepted if
    the NSEC records of those wildcard names are there too. *)
Theorem C83_at_wildcard_partial : forall e inp, Forall Held inp -> SortsNeeds e ->
  (forall s, In (RR_RRSig s) inp -> ~ EmptyMaxLabels inp s) -> TwoParams e inp ->
  Acceptable e inp -> ExpansionsDenied e inp -> OwnNsec e inp ->
  exists fuel v, verify_rr_stream e false fuel inp = Ok v.
Proof. exact star_accepted. Qed.
Print Assumptions C83_at_wildcard_partial.
(** Without them it is not: RFC 4034 3.1.3 leaves the asterisk out of the labels field, and the validator
    compares that field with all labels of the owner. *)
Theorem C83_at_wildcard_refuted : ~ (forall e inp, Forall Held inp -> SortsNeeds e ->
  (forall s, In (RR_RRSig s) inp -> ~ EmptyMaxLabels inp s) -> TwoParams e inp -> OneZone e inp ->
  Acceptable e inp -> ExpansionsDenied e inp ->
  exists fuel v, verify_rr_stream e false fuel inp = Ok v).
Proof. exact star_refuted. Qed.
Print Assumptions C83_at_wildcard_refuted.
(** In every accepted stream some NSEC or NSEC3 record passes for a denial of the very record returned. *)
Theorem C83_own_denial : forall e dbg fuel inp v, Forall Held inp -> SortsNeeds e ->
  verify_rr_stream e dbg fuel inp = Ok v ->
  forall r z s, In r (vr_rrs v) -> Reached e inp z -> SignedByZone e inp (fun _ => True) z s ->
  In r (rrset inp (rs_name s) (rs_ty s)) -> AtWildcard s -> WeaklyDenied e inp (rr_name r) (rr_ty r).
Proof. exact star_contradiction. Qed.
Print Assumptions C83_own_denial.
Example C83_example :
  (Forall Held s_own /\ SortsNeeds echo_env /\ (forall s, In (RR_RRSig s) s_own -> ~ EmptyMaxLabels s_own s) /\ TwoParams echo_env s_own) /\
  (Acceptable echo_env s_own /\ ExpansionsDenied echo_env s_own /\ OwnNsec echo_env s_own) /\
  (exists v, echo s_own = Ok v /\ vr_rrs v = [w_a "*.a."]) /\
  (Reached echo_env s_own (bs "a.") /\ SignedByZone echo_env s_own (fun _ => True) (bs "a.") s_sig /\
   In (w_a "*.a.") (rrset s_own (rs_name s_sig) (rs_ty s_sig)) /\ AtWildcard s_sig) /\
  echo s_bare = Err Invalid.
Proof.
  exact (conj (conj s_own_held (conj echo_sorts (conj s_own_max s_own_two))) (conj s_own_good (conj s_own_accepted (conj s_signed s_bare_rejected)))).
Qed.
