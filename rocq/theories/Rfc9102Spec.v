(** Specification for C77: which query each response answers. *)
From Verif Require Import Base QueryM QuerySpec.
Local Open Scope N_scope.

(** Query 0 is the first one, the others are numbered as they are handed out; [pos] has for each response the number of the query
    it answers: one which was handed out before, and not answered before. *)
Definition Answering (tr : list (list N * outcome unit (list qbuf))) (pos : list nat) : Prop :=
  length pos = length tr /\ NoDup pos /\ forall i p, nth_error pos i = Some p -> (p <= length (handed (firstn i tr)))%nat.
