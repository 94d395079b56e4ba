(** Specification of the fuzz targets. *)
From Verif Require Import Base RecSpec QueryM QuerySpec.
Local Open Scope N_scope.

(** The stream [s] consists of frames around the messages given to the builder, each while it awaited one, and of [rest]. *)
Definition Feeds (dbg : bool) (s : list N) (tr : list (list N * outcome unit (list qbuf))) (b : builder) (rest : list N) : Prop :=
  Driven dbg builder_init tr b /\ s = flat_map frame (map fst tr) ++ rest /\ Forall (fun c => length_of (fst c) <= 65535) tr.
