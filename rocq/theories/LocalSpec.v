(** What it means that a result depends on some octets only. *)
From Coq Require Import List NArith.
Import ListNotations.

(** [b] is as long as [a] and has the same octets at the positions [ps]. *)
Definition AgreeAt (ps : list nat) (a b : list N) : Prop := length a = length b /\ forall i, In i ps -> nth_error a i = nth_error b i.
