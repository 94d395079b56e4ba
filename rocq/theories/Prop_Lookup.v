(** Property C71: a lookup from end to end. *)
From Verif Require Import Base NameM WireM RRM SerM ValM NameSpec RecSpec ValSpec ResolveSpec ResolveW QueryM QuerySpec AcceptSpec ValW OrderW LiveSpec LiveW LiveW2 LookupSpec LookupP LookupP2 LookupW LookupW2.
From Coq Require Import String Permutation.
Local Open Scope N_scope.

(** [WellSigned], [Serves], [Answers]: as in C64. [Chain]: the aliases of the answer lead from [n] to [m]. [Finds]: the proof is built,
    read back, verified, and resolving [n] in it gives the records of the answer at [m], all of them and no others. *)
Theorem C71_lookup_partial : forall e dbg zones answers n ty data resp m, proper_name n -> ty < 65536 -> ty <> 43 /\ ty <> 48 -> SortsNeeds e ->
  WellSigned e zones answers (FirstVouched e) -> Serves zones answers n ty data -> Answers data dbg n ty resp ->
  (forall m t rt, Asked data n ty m t -> In rt (data m t) -> wf_rr (fst rt)) -> (List.length zones <= 5)%nat ->
  Chain answers n m -> Aligned answers n -> NoRootDname answers -> Finds e dbg zones answers n ty resp m.
Proof. exact lookup_works. Qed.
Print Assumptions C71_lookup_partial.
(** Missing, beside what C64 misses: names which are the owner of a DNAME, or end like one. *)
Theorem C71_owner_refuted : ~ (forall e dbg zones answers n ty data resp m, proper_name n -> ty < 65536 -> ty <> 43 /\ ty <> 48 -> SortsNeeds e ->
  WellSigned e zones answers (FirstVouched e) -> Serves zones answers n ty data -> Answers data dbg n ty resp ->
  (forall m t rt, Asked data n ty m t -> In rt (data m t) -> wf_rr (fst rt)) -> (List.length zones <= 5)%nat ->
  Chain answers n m -> NoRootDname answers -> Finds e dbg zones answers n ty resp m).
Proof. exact lookup_refuted. Qed.
Print Assumptions C71_owner_refuted.
Theorem C71_sibling_refuted : ~ (forall e dbg zones answers n ty data resp m, proper_name n -> ty < 65536 -> ty <> 43 /\ ty <> 48 -> SortsNeeds e ->
  WellSigned e zones answers (FirstVouched e) -> Serves zones answers n ty data -> Answers data dbg n ty resp ->
  (forall m t rt, Asked data n ty m t -> In rt (data m t) -> wf_rr (fst rt)) -> (List.length zones <= 5)%nat ->
  Chain answers n m -> (forall k x d, Steps answers k n x -> HasRec answers (RR_DName d) -> x <> dn_name d) -> NoRootDname answers -> Finds e dbg zones answers n ty resp m).
Proof. exact sibling_refuted. Qed.
Print Assumptions C71_sibling_refuted.
(** And DNAMEs to the root. *)
Theorem C71_root_refuted : ~ (forall e dbg zones answers n ty data resp m, proper_name n -> ty < 65536 -> ty <> 43 /\ ty <> 48 -> SortsNeeds e ->
  WellSigned e zones answers (FirstVouched e) -> Serves zones answers n ty data -> Answers data dbg n ty resp ->
  (forall m t rt, Asked data n ty m t -> In rt (data m t) -> wf_rr (fst rt)) -> (List.length zones <= 5)%nat ->
  Chain answers n m -> Aligned answers n -> Finds e dbg zones answers n ty resp m).
Proof. exact root_refuted. Qed.
Print Assumptions C71_root_refuted.
(** Whatever was verified, no DNAME can be looked up. *)
Theorem C71_no_dname_partial : forall rrs k n l d, resolve_name rrs k n = Ok l -> ~ In (RR_DName d) l.
Proof. exact resolve_end. Qed.
Print Assumptions C71_no_dname_partial.
(** x.a. CNAME x.d.a., d.a. DNAME e.a., x.e.a. A. In [k_made] the resolver also has, unsigned, x.d.a. CNAME x.e.a. *)
Example C71_example :
  WellSigned echo_env l_small k_chain (FirstVouched echo_env) /\ Serves l_small k_chain (bs "x.a.") 1 (l_data l_small k_made (bs "x.a.") 1) /\
  Answers (l_data l_small k_made (bs "x.a.") 1) false (bs "x.a.") 1 (l_resp l_small k_made (bs "x.a.") 1) /\
  Chain k_chain (bs "x.a.") (bs "x.e.a.") /\ Aligned k_chain (bs "x.a.") /\ NoRootDname k_chain /\
  Finds echo_env false l_small k_chain (bs "x.a.") 1 (l_resp l_small k_made (bs "x.a.") 1) (bs "x.e.a.").
Proof.
  split; [exact chain_signed|]. split; [exact made_serves|]. split; [exact (proj1 made_answers)|]. split; [exact chain_chain|].
  split; [exact chain_aligned|]. split; [exact chain_roots|]. exact made_found.
Qed.
