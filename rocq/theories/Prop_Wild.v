(** Property C69: an answer from a wildcard does not replace what exists. The world of zones is that of
    SecSpec.v, all honest here, with true NSEC and NSEC3 records (WildSpec.v). *)
From Verif Require Import Base NameM RRM SerM ValM NameSpec RecSpec ValSpec SecSpec WildSpec WildP ValW SecW WildW NextW.
From Coq Require Import String.
Import List.ListNotations.
Local Open Scope N_scope.

(** Every returned record is one published for its name, or for a wildcard, along with a published NSEC
    or NSEC3 record; then the zone which published that has nothing at the next closer name, or the
    record is the one of that very name. *)
Theorem C69_origin_partial : forall e KeyOf Honest Signed fuel inp v r, World e KeyOf Honest Signed -> (forall d, Honest d) -> Truthful e Signed -> SortsNeeds e ->
  Forall Held inp -> Forall fits_rr inp -> ProperNext inp -> verify_rr_stream e false fuel inp = Ok v -> In r (vr_rrs v) ->
  PublishedAt Signed r \/ exists nc z' d, Synthesised e Signed inp r nc z' d /\
    ((forall s rs, Signed z' s rs -> rs_ty s <> 50 -> rs_name s <> nc) \/ OwnRecord e d nc).
Proof. exact wild_origin. Qed.
Print Assumptions C69_origin_partial.
(** Where a zone has signed records of this name and type, these are what is returned, if the wildcard
    is right above the name, and among the NSEC and NSEC3 records given there is neither the one of the
    name itself nor one of another zone around it. *)
Theorem C69_exact_partial : forall e KeyOf Honest Signed fuel inp v r z s rs, World e KeyOf Honest Signed -> (forall d, Honest d) -> Truthful e Signed -> SortsNeeds e ->
  Forall Held inp -> Forall fits_rr inp -> ProperNext inp -> verify_rr_stream e false fuel inp = Ok v -> In r (vr_rrs v) ->
  Signed z s rs -> rs_name s = rr_name r -> rs_ty s = rr_ty r -> OneLabel inp (rr_name r) (rr_ty r) ->
  (forall d, In d inp -> ~ OwnRecord e d (rr_name r)) ->
  (forall d z' s' rs', In d inp -> Signed z' s' rs' -> In d rs' -> Between e d (rr_name r) -> z' = z) ->
  PublishedAt Signed r.
Proof. exact wild_exact. Qed.
Print Assumptions C69_exact_partial.
(** Also where no zone has signed a wildcard of this type. *)
Theorem C69_plain_partial : forall e KeyOf Honest Signed fuel inp v r, World e KeyOf Honest Signed -> Forall Held inp -> Forall fits_rr inp ->
  verify_rr_stream e false fuel inp = Ok v -> In r (vr_rrs v) -> (forall d p, rr_name r = p ++ d -> proper_name d -> Honest d) ->
  (forall z s rs, Signed z s rs -> rs_ty s = rr_ty r -> ~ is_wildcard (rs_name s)) -> PublishedAt Signed r.
Proof. exact no_wild_exact. Qed.
Print Assumptions C69_plain_partial.
(** The address of x.a., and the address of *.a. with an NSEC record which ends at x.a. *)
Example C69_example : World (t_env o_table) (t_keys o_table) (fun _ => True) (t_signed o_table) /\ Truthful (t_env o_table) (t_signed o_table) /\
  (exists v, verify_rr_stream (t_env o_table) false 10 o_plain = Ok v /\ vr_rrs v = [x_other] /\ PublishedAt (t_signed o_table) x_other) /\
  verify_rr_stream (t_env o_table) false 10 o_denied = Err Invalid.
Proof. exact wild_example. Qed.

(** Each of the three conditions of C69_exact_partial is needed. An NSEC record denies the names above the
    one which it ends at (empty non-terminals), where only a wildcard further up applies: with the
    records for *.a. and x.b.a., and none for b.a., x.b.a. gets the address of *.a. *)
Theorem C69_nonterminal_refuted : ~ (forall e KeyOf Honest Signed fuel inp v r z s rs, World e KeyOf Honest Signed -> (forall d, Honest d) -> Truthful e Signed -> SortsNeeds e ->
  Forall Held inp -> Forall fits_rr inp -> ProperNext inp -> verify_rr_stream e false fuel inp = Ok v -> In r (vr_rrs v) ->
  Signed z s rs -> rs_name s = rr_name r -> rs_ty s = rr_ty r ->
  (forall d, In d inp -> ~ OwnRecord e d (rr_name r)) -> (forall z' s' rs', Signed z' s' rs' -> rs_ty s' = 47 -> z' = z) ->
  PublishedAt Signed r).
Proof. exact ent_refuted. Qed.
Print Assumptions C69_nonterminal_refuted.
Example C69_nonterminal_example : t_signed e_table (bs "a.") (x_sig "x.b.a." 1 3 x_key) [e_other] /\
  exists v, verify_rr_stream (t_env e_table) false 10 e_inp = Ok v /\ vr_rrs v = [w_a "x.b.a."].
Proof. split; [exists x_key; eexists; split; [right; left; reflexivity |]; split; [reflexivity |]; do 4 right; left; reflexivity | exact e_ok]. Qed.
(** The NSEC record of a delegation, in the parent zone, denies everything in the child zone. *)
Theorem C69_delegation_refuted : ~ (forall e KeyOf Honest Signed fuel inp v r z s rs, World e KeyOf Honest Signed -> (forall d, Honest d) -> Truthful e Signed -> SortsNeeds e ->
  Forall Held inp -> Forall fits_rr inp -> ProperNext inp -> verify_rr_stream e false fuel inp = Ok v -> In r (vr_rrs v) ->
  Signed z s rs -> rs_name s = rr_name r -> rs_ty s = rr_ty r -> OneLabel inp (rr_name r) (rr_ty r) ->
  (forall d, In d inp -> ~ OwnRecord e d (rr_name r)) ->
  PublishedAt Signed r).
Proof. exact delegation_refuted. Qed.
Print Assumptions C69_delegation_refuted.
Example C69_delegation_example : t_signed d_table (bs "b.a.") (x_sig "x.b.a." 1 3 d_key) [d_other] /\
  exists v, verify_rr_stream (t_env d_table) false 10 d_inp = Ok v /\ vr_rrs v = [w_a "x.b.a."].
Proof. split; [exists d_key; eexists; split; [right; right; left; reflexivity |]; split; [reflexivity |]; do 4 right; left; reflexivity | exact d_ok]. Qed.
(** The NSEC record of the name itself denies it, although it lists the type. *)
Theorem C69_own_refuted : ~ (forall e KeyOf Honest Signed fuel inp v r z s rs, World e KeyOf Honest Signed -> (forall d, Honest d) -> Truthful e Signed -> SortsNeeds e ->
  Forall Held inp -> Forall fits_rr inp -> ProperNext inp -> verify_rr_stream e false fuel inp = Ok v -> In r (vr_rrs v) ->
  Signed z s rs -> rs_name s = rr_name r -> rs_ty s = rr_ty r -> OneLabel inp (rr_name r) (rr_ty r) ->
  (forall z' s' rs', Signed z' s' rs' -> rs_ty s' = 47 -> z' = z) ->
  PublishedAt Signed r).
Proof. exact own_refuted. Qed.
Print Assumptions C69_own_refuted.
Example C69_own_example : t_signed o_table (bs "a.") (x_sig "x.a." 1 2 x_key) [x_other] /\
  exists v, verify_rr_stream (t_env o_table) false 10 o_inp = Ok v /\ vr_rrs v = [w_a "x.a."].
Proof. split; [exists x_key; eexists; split; [right; left; reflexivity |]; split; [reflexivity |]; do 4 right; left; reflexivity | exact o_ok]. Qed.
(** That the next names have no empty labels is needed in C69_origin_partial: the octets of some NSEC records
    are also those of another one with such a name (C96), which the parser makes of a label with a dot. *)
Theorem C69_next_refuted : ~ (forall e KeyOf Honest Signed fuel w inp v r, World e KeyOf Honest Signed -> (forall d, Honest d) -> Truthful e Signed -> SortsNeeds e ->
  is_bytes w -> parse_rr_stream false w = Ok inp -> verify_rr_stream e false fuel inp = Ok v -> In r (vr_rrs v) ->
  PublishedAt Signed r \/ exists nc z' d, Synthesised e Signed inp r nc z' d).
Proof. exact next_refuted. Qed.
Print Assumptions C69_next_refuted.
Example C69_next_example : t_signed n_table (bs "a.") (x_sig "x.a." 16 2 x_key) [n_txt "x.a." 120] /\ parse_rr_stream false n_wire = Ok (n_inp n_false) /\
  exists v, verify_rr_stream (t_env n_table) false 10 (n_inp n_false) = Ok v /\ vr_rrs v = [n_txt "x.a." 42].
Proof. destruct n_forged as (A & B & C & _). split; [exact A |]. split; [exact B | exact C]. Qed.
