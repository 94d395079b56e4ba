(** Specification for records at a wildcard name, asked for by that name (RFC 4592 2.2.1): they are not
    synthesised, although the labels field of their RRSIG does not count the asterisk (RFC 4034 3.1.3). *)
From Verif Require Import Base RRM ValM NameSpec ValSpec AcceptSpec.
Local Open Scope N_scope.

(** [s] signs records at the wildcard which its labels field stands for. *)
Definition AtWildcard (s : rrsig) : Prop :=
  exists suf, LabelsOf (rs_name s) ([42] :: suf) /\ N.of_nat (length suf) = rs_labels s.
(** The next closer name of everything else signed for a wildcard is denied, as in [Denials]. *)
Definition ExpansionsDenied (e : env) (inp : list RR) : Prop := forall z s pre l suf,
  Visited e inp z -> GoodSig e inp z s -> rs_ty s <> 43 -> rs_ty s <> 47 ->
  LabelsOf (rs_name s) (pre ++ l :: suf) -> N.of_nat (length suf) = rs_labels s -> ~ AtWildcard s ->
  DeniedUnder e inp z (dotted (l :: suf)) (rs_ty s).
(** With the records at a wildcard comes the NSEC record of that name, and it is not the last one. *)
Definition OwnNsec (e : env) (inp : list RR) : Prop := forall z s,
  Visited e inp z -> GoodSig e inp z s -> rs_ty s <> 43 -> rs_ty s <> 47 -> AtWildcard s ->
  exists n, Proven e inp (RR_NSec n) /\ ns_name n = rs_name s /\ name_lt (ns_name n) (ns_next n).
