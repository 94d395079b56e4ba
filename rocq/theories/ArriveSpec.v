(** Specification of answers which come in any order. *)
From Coq Require Import List NArith.
From Verif Require Import Base RRM QueryM QuerySpec AcceptSpec.
Import ListNotations.
Local Open Scope N_scope.

Section Arrive.
  Variable dbg : bool.
  (** The resolver: the answer to the octets of a query. *)
  Variable answer : list N -> list N.

  (** [Arrive b waiting order b' waiting']: with [b] and the queries [waiting] unanswered, the answers to the
      queries [order] come in, in this order and all accepted, leaving [b'] and [waiting']. Each time any of
      the waiting queries may be the one answered, and the queries handed out then are sent as well. *)
  Inductive Arrive : builder -> list (list N) -> list (list N) -> builder -> list (list N) -> Prop :=
  | Arrive_nil b w : Arrive b w [] b w
  | Arrive_one b w1 q w2 qs b1 order b2 w : process_response dbg b (answer q) = (Ok qs, b1) ->
      Arrive b1 (w1 ++ w2 ++ map qb_deref qs) order b2 w -> Arrive b (w1 ++ q :: w2) (q :: order) b2 w.

  (** The records of the answers to [order]. *)
  Definition Brings (order : list (list N)) (items : list (RR * N)) : Prop :=
    exists l, Forall2 (fun q i => Response (negb dbg) (answer q) i) order l /\ items = concat l.
  (** All DNSKEYs of a zone, and RRSIGs over them, are in the answer to one query. *)
  Definition KeysTogether (order : list (list N)) : Prop :=
    forall z, exists q0, forall q items, In q order -> q <> q0 -> Response (negb dbg) (answer q) items ->
      keys_at (map fst items) z = [] /\ sigs_over (map fst items) z 48 = [].
End Arrive.
