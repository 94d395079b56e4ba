(** Specification for C79: leaving RRsets out of a proof, with their signatures. *)
From Verif Require Import Base RRM.
Local Open Scope N_scope.

(** [D n ty]: the RRset of type [ty] at [n] is to be left out. *)
Definition kept (D : list N -> N -> bool) (r : RR) : bool :=
  match r with RR_RRSig s => negb (D (rs_name s) (rs_ty s)) | _ => negb (D (rr_name r) (rr_ty r)) end.
Definition trimmed (D : list N -> N -> bool) (inp : list RR) : list RR := filter (kept D) inp.
