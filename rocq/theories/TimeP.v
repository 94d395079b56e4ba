(** Proofs about [resolve_time] (C47). *)
From Verif Require Import Base ValM TimeSpec.
From Coq Require Import Lia.
Local Open Scope N_scope.

Lemma window_mod x : in_window x -> (x < 4294967296 /\ x mod 2 ^ 32 = x) \/ (4294967296 <= x /\ x mod 2 ^ 32 = x - 4294967296).
Proof.
  unfold in_window. change (2 ^ 32) with 4294967296. change (27 * 365 * 86400) with 851472000. intros [H1 H2].
  destruct (N.lt_ge_cases x 4294967296) as [L | L].
  - left. split; [assumption | apply N.mod_small; assumption].
  - right. split; [assumption |]. symmetry. apply N.mod_unique with 1; lia.
Qed.

Lemma resolve_off t x : stands_for t x -> in_window x -> resolve_time t = if x <? 2 ^ 32 then x else x - 1.
Proof.
  unfold stands_for. intros H W. generalize W. unfold in_window. change (27 * 365 * 86400) with 851472000. change (2 ^ 32) with 4294967296 in *.
  intros [W1 W2]. unfold resolve_time. change (60 * 60 * 24 * 365 * 27) with 851472000.
  destruct (window_mod x W) as [[L E] | [L E]]; change (2 ^ 32) with 4294967296 in E; rewrite E in H; subst t.
  - destruct (N.ltb_spec x 851472000); [lia |]. destruct (N.ltb_spec x 4294967296); lia.
  - destruct (N.ltb_spec (x - 4294967296) 851472000); [| lia]. destruct (N.ltb_spec x 4294967296); lia.
Qed.

Lemma window_unique t : t < 2 ^ 32 -> exists x, stands_for t x /\ in_window x /\ forall y, stands_for t y -> in_window y -> y = x.
Proof.
  intros H. change (2 ^ 32) with 4294967296 in H.
  assert (E : exists x, stands_for t x /\ in_window x).
  { unfold stands_for, in_window. change (27 * 365 * 86400) with 851472000. change (2 ^ 32) with 4294967296.
    destruct (N.lt_ge_cases t 851472000).
    - exists (t + 4294967296). split; [| lia]. symmetry. apply N.mod_unique with 1; lia.
    - exists t. split; [apply N.mod_small; lia | lia]. }
  destruct E as (x & S & W). exists x. repeat split; auto; try apply W.
  intros y Sy Wy. unfold stands_for in *.
  destruct (window_mod x W) as [[L E] | [L E]], (window_mod y Wy) as [[L' E'] | [L' E']]; rewrite ?E, ?E' in *;
  unfold in_window in *; change (27 * 365 * 86400) with 851472000 in *; change (2 ^ 32) with 4294967296 in *; lia.
Qed.

Lemma resolve_partial t : t < 2 ^ 32 ->
  exists x, stands_for t x /\ in_window x /\ (forall y, stands_for t y -> in_window y -> y = x) /\
            resolve_time t = if x <? 2 ^ 32 then x else x - 1.
Proof.
  intros H. destruct (window_unique t H) as (x & S & W & U). exists x. repeat split; auto; try apply W. apply resolve_off; assumption.
Qed.

Lemma resolve_mono x y : in_window x -> in_window y -> x <= y -> resolve_time (x mod 2 ^ 32) <= resolve_time (y mod 2 ^ 32).
Proof.
  intros. rewrite (resolve_off (x mod 2 ^ 32) x), (resolve_off (y mod 2 ^ 32) y); try reflexivity; try assumption.
  destruct (N.ltb_spec x (2 ^ 32)), (N.ltb_spec y (2 ^ 32)); lia.
Qed.

Lemma resolve_congruent_refuted : ~ (forall t, t < 2 ^ 32 -> stands_for t (resolve_time t)).
Proof. intros H. specialize (H 0 eq_refl). vm_compute in H. discriminate. Qed.

Lemma resolve_epoch_refuted : ~ (forall t, t < 2 ^ 32 -> january_1997 <= resolve_time t).
Proof. intros H. specialize (H 851472000 eq_refl). vm_compute in H. congruence. Qed.
