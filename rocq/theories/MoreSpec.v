(** Specification for C85: a proof with records added to it. *)
From Verif Require Import Base RRM ValM AcceptSpec.
Local Open Scope N_scope.

(** The RRSIGs over DNSKEY RRsets are the same, in the same order, followed by any added. *)
Definition KeySigsKept (inp inp' : list RR) : Prop := forall z, exists more, sigs_over inp' z 48 = sigs_over inp z 48 ++ more.
(** The time in which [v'] may be used, and kept, is part of that of [v]. *)
Definition NoLonger (v v' : verified) : Prop :=
  vr_valid_from v <= vr_valid_from v' /\ vr_expires v' <= vr_expires v /\ vr_max_cache_ttl v' <= vr_max_cache_ttl v.
(** The CNAME and DNAME records, in order. *)
Definition aliases (rrs : list RR) : list RR := filter (fun r => (rr_ty r =? 5) || (rr_ty r =? 39)) rrs.
