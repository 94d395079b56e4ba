(** Specification of decimal numerals. *)
From Coq Require Import List NArith.
Import ListNotations.
Local Open Scope N_scope.

Definition is_digit (c : N) : Prop := 48 <= c <= 57.
Definition digits_value (s : list N) : N := fold_left (fun v d => 10 * v + (d - 48)) s 0.
(** [s] is the decimal numeral of [n], without leading zeros. *)
Definition Decimal (n : N) (s : list N) : Prop :=
  s <> [] /\ Forall is_digit s /\ digits_value s = n /\ (s = [48] \/ hd 48 s <> 48).
