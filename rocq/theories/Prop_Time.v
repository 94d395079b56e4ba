(** Property C47: signature timestamps. *)
From Verif Require Import Base ValM TimeSpec TimeP.
Local Open Scope N_scope.

(** C47. The full statement is refuted in both halves: times past 2106 come out one second early
    (2^32 - 1 is added, not 2^32), and the cutoff is 25 December 1996. *)
Theorem C47_congruent_refuted : ~ (forall t, t < 2 ^ 32 -> stands_for t (resolve_time t)).
Proof. exact resolve_congruent_refuted. Qed.
Print Assumptions C47_congruent_refuted.
Theorem C47_epoch_refuted : ~ (forall t, t < 2 ^ 32 -> january_1997 <= resolve_time t).
Proof. exact resolve_epoch_refuted. Qed.
Print Assumptions C47_epoch_refuted.

(** What does hold: the timestamp stands for exactly one instant of the 2^32 seconds from the cutoff,
    and the result is that instant, or the second before it when it lies past 2^32. *)
Theorem C47_time_partial : forall t, t < 2 ^ 32 ->
  exists x, stands_for t x /\ in_window x /\ (forall y, stands_for t y -> in_window y -> y = x) /\
            resolve_time t = if x <? 2 ^ 32 then x else x - 1.
Proof. exact resolve_partial. Qed.
Print Assumptions C47_time_partial.
(** ... and the order of instants of the window is kept (so comparing a result with another is sound). *)
Theorem C47_order : forall x y, in_window x -> in_window y -> x <= y -> resolve_time (x mod 2 ^ 32) <= resolve_time (y mod 2 ^ 32).
Proof. exact resolve_mono. Qed.
Print Assumptions C47_order.
Example C47_example : resolve_time 1700000000 = 1700000000 /\ resolve_time 1 = 2 ^ 32 /\ stands_for 1 (2 ^ 32 + 1) /\
  resolve_time (4294967295 mod 2 ^ 32) = resolve_time (4294967296 mod 2 ^ 32).
Proof. vm_compute. repeat split. Qed.
