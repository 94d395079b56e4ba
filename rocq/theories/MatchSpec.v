(** Specification: the question a message is about. *)
From Coq Require Import List NArith.
From Verif Require Import Base WireSpec RRM SerM RecSpec ValSpec QueryM QuerySpec.
Import ListNotations.
Local Open Scope N_scope.

(** The first question of the message, after the 12 octets of the header. *)
Definition Question (m n : list N) (ty : N) : Prop :=
  exists head nb cl rest, length head = 12%nat /\ m = head ++ nb ++ u16 ty ++ u16 cl ++ rest /\ NameIn m nb n.
(** Each query has an answer among the accepted responses: one with the query's question. *)
Definition EachAnswered (n : list N) (ty : N) (tr : list (list N * outcome unit (list qbuf))) : Prop :=
  (exists m, In m (accepted tr) /\ Question m n ty) /\
  forall q k t, In q (handed tr) -> Query k t (qb_deref q) -> exists m, In m (accepted tr) /\ Question m k t.
