(** Specification for C75: one proof made of two. *)
From Verif Require Import Base RRM ValM ValSpec AcceptSpec.
Local Open Scope N_scope.

(** The records of [a], and those of [b] which are not among them. *)
Definition merged (a b : list RR) : list RR := a ++ filter (fun r => if in_dec rr_eq_dec r a then false else true) b.

(** Of an RRset which is signed in [a], [b] has no record which [a] lacks. *)
Definition NothingMore (a b : list RR) : Prop := forall s r, In (RR_RRSig s) a -> In r b ->
  rr_name r = rs_name s -> rr_ty r = rs_ty s -> In r a.

(** There are no RRSIGs but of the zones reached. *)
Definition Tidy (e : env) (inp : list RR) : Prop := forall s, In (RR_RRSig s) inp ->
  (rs_ty s = 48 -> Visited e inp (rs_name s)) /\ (rs_ty s <> 48 -> Visited e inp (rs_key_name s)).
