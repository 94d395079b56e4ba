(** Specification of what the DNS of the world of SecSpec.v says about a name: where the aliases which the
    zones have published lead. *)
From Verif Require Import Base RRM ValM NameSpec RecSpec ValSpec SecSpec ResolveSpec.
Local Open Scope N_scope.

Section Answers.
  Variable redirect : list N -> list N -> list N -> list N -> Prop.
  Variable Signed : list N -> rrsig -> list RR -> Prop.
  (** [r] is in a signed RRset of its type, at its name or at a wildcard for it. *)
  Definition Issued (r : RR) : Prop :=
    exists z s rs, Signed z s rs /\ rs_ty s = rr_ty r /\ Covers (rs_name s) (rr_name r) /\ In (rename (rs_name s) r) rs.
  Inductive PubAlias : list N -> list N -> Prop :=
  | PubAlias_cname c : Issued (RR_CName c) -> PubAlias (cn_name c) (cn_canonical c)
  | PubAlias_dname n d t : Issued (RR_DName d) -> redirect n (dn_name d) (dn_delegation d) t -> acceptable t -> PubAlias n t.
  Inductive Leads : list N -> list N -> Prop :=
  | Leads_here n : Leads n n
  | Leads_on n m e : PubAlias n m -> Leads m e -> Leads n e.
End Answers.

(** No zone has a say about [n] but honest ones. *)
Definition InGoodHands (Honest : list N -> Prop) (n : list N) : Prop := forall d p, n = p ++ d -> proper_name d -> Honest d.
