(** Specification for answers from wildcards in the world of SecSpec.v: what the NSEC and NSEC3 records
    published by honest zones say is true. *)
From Verif Require Import Base WireM RRM ValM NameSpec RecSpec ValSpec SecSpec.
Local Open Scope N_scope.

(** The hash of [nc] with the parameters of the NSEC3 record. *)
Definition hash_for (e : env) (n : nsec3) (nc : list N) : list N := n3_hash e (n3_salt n) (write_name nc) (N.to_nat (n3_iters n)).

(** The record has [nc] strictly between its owner and the next; it is the record of [nc] itself. *)
Definition Between (e : env) (d : RR) (nc : list N) : Prop :=
  match d with RR_NSec n => nsec_strict n nc | RR_NSec3 n => nsec3_strict e n nc | _ => False end.
Definition OwnRecord (e : env) (d : RR) (nc : list N) : Prop :=
  match d with RR_NSec n => ns_name n = nc | RR_NSec3 n => n3_owner_hash n (hash_for e n nc) | _ => False end.
(** The types which the record lists. *)
Definition Lists (d : RR) (ty : N) : Prop :=
  match d with RR_NSec n => has_type (ns_types n) ty | RR_NSec3 n => has_type (n3_types n) ty | _ => False end.

Section Truth.
  Variable e : env.
  Variable Signed : list N -> rrsig -> list RR -> Prop.
  Record Truthful : Prop := {
    (** Nothing that the zone signs (but its NSEC3 records) is where its records say that nothing is, *)
    tr_gap : forall z s rs d s' rs', Signed z s rs -> In d rs -> Signed z s' rs' -> rs_ty s' <> 50 -> ~ Between e d (rs_name s');
    (** nor of a type which is not listed. *)
    tr_types : forall z s rs d s' rs', Signed z s rs -> In d rs -> Signed z s' rs' -> rs_ty s' <> 50 -> OwnRecord e d (rs_name s') -> Lists d (rs_ty s');
    (** NSEC3 records are not at a wildcard. *)
    tr_plain : forall z s rs, Signed z s rs -> rs_ty s = 50 -> ~ is_wildcard (rs_name s) }.

  (** [r] is as published at its own name. *)
  Definition PublishedAt (r : RR) : Prop :=
    exists z s rs, Signed z s rs /\ rs_name s = rr_name r /\ rs_ty s = rr_ty r /\ In r rs.
  (** [r] of the input [inp] is as published for the wildcard [*.suf], as its RRSIG says, and [d] of the
      input, published by [z'], is taken for the denial of the next closer name [nc]. *)
  Definition Synthesised (inp : list RR) (r : RR) (nc z' : list N) (d : RR) : Prop :=
    exists z s rs pre l suf s' rs', Signed z s rs /\ rs_ty s = rr_ty r /\ rs_name s = dotted ([42] :: suf) /\ In (rename (rs_name s) r) rs /\
      LabelsOf (rr_name r) (pre ++ l :: suf) /\ nc = dotted (l :: suf) /\
      (exists s0, In (RR_RRSig s0) inp /\ rs_name s0 = rr_name r /\ rs_ty s0 = rr_ty r /\ rs_labels s0 = N.of_nat (length suf)) /\
      In d inp /\ Signed z' s' rs' /\ In d rs' /\ (exists p, rs_name s' = p ++ z') /\
      (Between e d nc \/ OwnRecord e d nc).
End Truth.
(** The next names of the NSEC records have no empty label. *)
Definition ProperNext (inp : list RR) : Prop := forall n, In (RR_NSec n) inp -> proper_name (ns_next n).
(** Records of this name and type are from no wildcard but that of the name without its first label. *)
Definition OneLabel (inp : list RR) (n : list N) (ty : N) : Prop := forall s ls, In (RR_RRSig s) inp -> rs_name s = n -> rs_ty s = ty ->
  LabelsOf n ls -> N.of_nat (length ls) <= rs_labels s + 1.
