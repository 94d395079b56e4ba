(** Specification of what reaches the other side of a connection whose writes may fail. *)
From Verif Require Import Base WriteM.
Local Open Scope N_scope.

Definition Prefix (a b : list N) : Prop := exists x, b = a ++ x.
(** A write which fails. *)
Definition Fails (ev : write_event) : Prop := ev = WFails \/ ev = WTakes 0.
(** A connection which has failed takes nothing any more. *)
Definition StaysFailed (evs : list write_event) : Prop := forall before ev after, evs = before ++ ev :: after -> Fails ev -> Forall Fails after.
