(** The second order of records: [Ord::cmp], next to [PartialOrd::partial_cmp] which is [rr_cmp] of RRM.v. *)
From Verif Require Import Base WireM RRM.
Local Open Scope N_scope.

(** src/rr.rs:246: [Ord] of [Txt] is derived (name, then data) though [PartialOrd] is written by hand (src/rr.rs:259-275). *)
Definition txt_ord (a b : txt) : comparison := pair_cmp (tx_name a) (tx_data a) (tx_name b) (tx_data b).
(** src/rr.rs:78: derived [Ord] of [RR]. The other structs derive both orders (src/rr.rs:315, 366, 395, 427, 490, 544, 628,
    677, 719, 784, 812, 840), which are the same then. *)
Definition rr_ord (a b : RR) : comparison :=
  match a, b with
  | RR_Txt x, RR_Txt y => txt_ord x y
  | _, _ => rr_cmp a b
  end.
