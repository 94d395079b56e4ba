(** Specification of one connection of the server with a resolver given by a function. *)
From Coq Require Import List NArith.
From Verif Require Import Base RecSpec QuerySpec TextSpec HttpM HttpSpec ServerM ServerSpec.
Import ListNotations.
Local Open Scope N_scope.

(** In [acts] the client of connection [i] sends the request line [line], and the resolver, which may be connected to and
    may cut its bytes into segments as it likes, answers the queries [order] in this order, before anything else. *)
Definition Answered (answer : list N -> list N) (line : list N) (order : list (list N)) (acts : list action) (i : nat) : Prop :=
  ascii (first_4096 (client_of i 0 acts)) /\ FirstLine (first_4096 (client_of i 0 acts)) line /\
  (forall d, In (RBytes d) (resolver_of i 0 acts) -> is_bytes d) /\
  exists segs rest over, resolver_of i 0 acts = RConnected :: map RBytes segs ++ over /\ concat segs = flat_map frame (map answer order) ++ rest.
