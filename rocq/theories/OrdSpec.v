(** Specification for C76: what the documentation of [core::cmp] asks of [PartialOrd] and [Ord]. *)
From Verif Require Import Base NameSpec RRM.
Local Open Scope N_scope.

Record TotalOrder {A : Type} (c : A -> A -> comparison) : Prop := {
  to_eq : forall a b, c a b = Eq <-> a = b;
  to_dual : forall a b, c b a = CompOpp (c a b);
  to_trans : forall a b d o, o <> Eq -> c a b = o -> c b d = o -> c a d = o }.

(** Two texts that are the same for a number of full character-strings; in the one which ends first, the octets that follow are
    the greater ones. *)
Definition Swapped (x y : list N) : Prop := exists n pre s t, x = pre ++ s /\ y = pre ++ t /\ length pre = (255 * n)%nat /\
  (length s < 255)%nat /\ (length s < length t)%nat /\ lex N.lt t s.
