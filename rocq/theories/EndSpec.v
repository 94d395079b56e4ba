(** What the zones of PubSpec.v say on the wire: where the aliases which they have signed lead, and when
    their NSEC and NSEC3 records are true. *)
From Verif Require Import Base RRM ValM NameSpec WireSpec RecSpec ValSpec SecSpec WildSpec PubSpec NextSpec.
Local Open Scope N_scope.

Section Wire.
  Variable Signs : list N -> pub -> Prop.
  (** [r] means RDATA which a zone has signed at the name of [r], or at a wildcard for it. *)
  Definition WireIssued (r : RR) : Prop :=
    exists z p o d, Signs z p /\ pb_type p = rr_ty r /\ CanonName (owner_octets p) o /\ Covers o (rr_name r) /\
      In d (pb_data p) /\ RData CanonName false (rr_ty r) (rr_name r) r d.
  Definition WireIssuedAt (r : RR) : Prop :=
    exists z p d, Signs z p /\ pb_type p = rr_ty r /\ CanonName (owner_octets p) (rr_name r) /\
      In d (pb_data p) /\ RData CanonName false (rr_ty r) (rr_name r) r d.

  Variable redirect : list N -> list N -> list N -> list N -> Prop.
  Inductive WireAlias : list N -> list N -> Prop :=
  | WA_cname n t : WireIssued (RR_CName {| cn_name := n; cn_canonical := t |}) -> WireAlias n t
  | WA_dname n o d t : WireIssued (RR_DName {| dn_name := o; dn_delegation := d |}) -> redirect n o d t -> acceptable t -> WireAlias n t.
  Inductive WireLeads : list N -> list N -> Prop :=
  | WL_here n : WireLeads n n
  | WL_on n m e : WireAlias n m -> WireLeads m e -> WireLeads n e.

  (** [d] is an NSEC or NSEC3 record in an RRset which [z] has signed. *)
  Definition WireDenial (z : list N) (d : RR) : Prop :=
    exists p x, Signs z p /\ CanonName (owner_octets p) (rr_name d) /\ In x (pb_data p) /\ RData CanonName false (pb_type p) (rr_name d) d x.
  (** As [Truthful] of WildSpec.v, about RRsets of any type. *)
  Record WireTruthful (e : env) : Prop := {
    wt_gap : forall z d p n, WireDenial z d -> Signs z p -> pb_type p <> 50 -> CanonName (owner_octets p) n -> ~ Between e d n;
    wt_types : forall z d p n, WireDenial z d -> Signs z p -> pb_type p <> 50 -> CanonName (owner_octets p) n -> OwnRecord e d n -> Lists d (pb_type p);
    wt_plain : forall z p, Signs z p -> pb_type p = 50 -> hd [] (pb_owner p) <> [42] }.

  (** The NSEC records which the zones sign list ordinary types (NextSpec.v). *)
  Definition WireOrdinary : Prop := forall z p, Signs z p -> pb_type p = 47 -> Forall OrdinaryNsec (pb_data p).

  (** [r] means RDATA signed for the wildcard [*.suf], as its RRSIG says, and [d] of the input, signed by
      [z'], is taken for the denial of the next closer name [nc]. *)
  Definition WireSynthesised (e : env) (inp : list RR) (r : RR) (nc z' : list N) (d : RR) : Prop :=
    exists z p x pre l suf, Signs z p /\ pb_type p = rr_ty r /\ CanonName (owner_octets p) (dotted ([42] :: suf)) /\
      In x (pb_data p) /\ RData CanonName false (rr_ty r) (rr_name r) r x /\
      LabelsOf (rr_name r) (pre ++ l :: suf) /\ nc = dotted (l :: suf) /\
      (exists s, In (RR_RRSig s) inp /\ rs_name s = rr_name r /\ rs_ty s = rr_ty r /\ rs_labels s = N.of_nat (length suf)) /\
      In d inp /\ WireDenial z' d /\ (exists q, rr_name d = q ++ z') /\ (Between e d nc \/ OwnRecord e d nc).
End Wire.
