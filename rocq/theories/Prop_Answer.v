(** Property C70: what [resolve_name] returns for a name is what the DNS says about it. [Leads redirect Signed n m]: aliases
    published by the zones lead from [n] to [m]; [InGoodHands Honest n]: all zones whose name ends that of [n] are honest. *)
From Verif Require Import Base NameM WireM RRM SerM ValM NameSpec RecSpec ValSpec ValW SecSpec SecW WildW ResolveSpec ResolveW AnswerSpec AnswerP AnswerW.
From Coq Require Import String.
Local Open Scope N_scope.

(** From the proof to the answer, in both build modes: published aliases lead to the returned records, and these are as published,
    the RRset complete. Only the zones along the published aliases have a say. DNAME records are taken on texts. *)
Theorem C70_answers_partial : forall e KeyOf Honest Signed dbg fuel proof inp v k n l r, World e KeyOf Honest Signed -> is_bytes proof ->
  parse_rr_stream dbg proof = Ok inp -> verify_rr_stream e dbg fuel inp = Ok v -> name_try_from n = Some n ->
  (forall m, Leads redirect_text Signed n m -> InGoodHands Honest m) -> resolve_name (vr_rrs v) k n = Ok l -> In r l ->
  Leads redirect_text Signed n (rr_name r) /\ (exists z p, rr_name r = p ++ z /\ proper_name z /\ Published Signed z v r) /\
  (forall r', In r' (vr_rrs v) -> rr_name r' = rr_name r -> In r' l).
Proof. exact answers_published. Qed.
Print Assumptions C70_answers_partial.

(** DNAME records as in RFC 6672, provided that no name on the way is the owner of a DNAME record or ends in its text within a label. *)
Theorem C70_dns_partial : forall e KeyOf Honest Signed dbg fuel proof inp v k n l r, World e KeyOf Honest Signed -> is_bytes proof ->
  parse_rr_stream dbg proof = Ok inp -> verify_rr_stream e dbg fuel inp = Ok v -> proper_name n ->
  (forall m, Leads redirect_labels Signed n m -> InGoodHands Honest m) ->
  (forall c, Issued Signed (RR_CName c) -> proper_name (cn_canonical c)) ->
  (forall d, Issued Signed (RR_DName d) -> proper_name (dn_delegation d) /\ dn_delegation d <> [46]) ->
  (forall m d p, Leads redirect_labels Signed n m -> Issued Signed (RR_DName d) -> m = p ++ dn_name d -> exists q, p = q ++ [46]) ->
  resolve_name (vr_rrs v) k n = Ok l -> In r l ->
  Leads redirect_labels Signed n (rr_name r) /\ (exists z p, rr_name r = p ++ z /\ proper_name z /\ Published Signed z v r).
Proof. exact answers_dns. Qed.
Print Assumptions C70_dns_partial.
(** Missing: other names. In a world of honest zones only, the DNAME of a. to c. has the addresses of xc. returned for xa. ... *)
Theorem C70_sibling_refuted : ~ (forall e KeyOf Honest Signed dbg fuel proof inp v k n l r, World e KeyOf Honest Signed -> (forall d, Honest d) -> SortsNeeds e -> is_bytes proof ->
  parse_rr_stream dbg proof = Ok inp -> verify_rr_stream e dbg fuel inp = Ok v -> proper_name n ->
  (forall c, Issued Signed (RR_CName c) -> proper_name (cn_canonical c)) ->
  (forall d, Issued Signed (RR_DName d) -> proper_name (dn_delegation d) /\ dn_delegation d <> [46]) ->
  (forall m d, Leads redirect_labels Signed n m -> Issued Signed (RR_DName d) -> m <> dn_name d) ->
  resolve_name (vr_rrs v) k n = Ok l -> In r l -> Leads redirect_labels Signed n (rr_name r)).
Proof. exact sibling_answer_refuted. Qed.
Print Assumptions C70_sibling_refuted.
(** ... and those of c. for a. itself. *)
Theorem C70_owner_refuted : ~ (forall e KeyOf Honest Signed dbg fuel proof inp v k n l r, World e KeyOf Honest Signed -> (forall d, Honest d) -> SortsNeeds e -> is_bytes proof ->
  parse_rr_stream dbg proof = Ok inp -> verify_rr_stream e dbg fuel inp = Ok v -> proper_name n ->
  (forall c, Issued Signed (RR_CName c) -> proper_name (cn_canonical c)) ->
  (forall d, Issued Signed (RR_DName d) -> proper_name (dn_delegation d) /\ dn_delegation d <> [46]) ->
  (forall m d p, Leads redirect_labels Signed n m -> Issued Signed (RR_DName d) -> m = p ++ dn_name d -> p = [] \/ exists q, p = q ++ [46]) ->
  resolve_name (vr_rrs v) k n = Ok l -> In r l -> Leads redirect_labels Signed n (rr_name r)).
Proof. exact owner_answer_refuted. Qed.
Print Assumptions C70_owner_refuted.
Example C70_example : World (t_env s_table) (t_keys s_table) (fun _ => True) (t_signed s_table) /\
  exists v, verify_rr_stream (t_env s_table) false 20 s_inp = Ok v /\ resolve_name (vr_rrs v) 5 (bs "x.a.") = Ok [s_addr "x.c." 5] /\
    Leads redirect_labels (t_signed s_table) (bs "x.a.") (bs "x.c.") /\
    resolve_name (vr_rrs v) 5 (bs "xa.") = Ok [s_addr "xc." 3] /\ resolve_name (vr_rrs v) 5 (bs "a.") = Ok [s_addr "c." 4].
Proof. exact s_example. Qed.
