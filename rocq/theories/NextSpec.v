(** Specification: the octets of the RDATA of an NSEC record, for any names which this library holds, and
    the lists of types for which these octets mean only one record. *)
From Verif Require Import Base NameSpec WireSpec BitmapSpec RecSpec ValSpec PubSpec.
Local Open Scope N_scope.

(** The labels of the next name, some of them perhaps empty, then a canonical type bitmap. *)
Definition NsecOctets (next mask d : list N) : Prop :=
  exists ls bits, LabelsOf next ls /\ canonical_bitmap bits /\ BitmapEnc bits mask /\ d = wire_name ls ++ bits.

(** The types at a name of a zone which keeps to the rules: the NSEC record itself is listed (RFC 4035
    2.3), and none of the obsolete MD, MF and MB (RFC 1035); there is no SOA without NS; besides CNAME none
    of the types 32 to 39 is listed (RFC 2181 10.1), and at a delegation none from 256 (RFC 4035 2.3). *)
Definition OrdinaryTypes (lists : N -> Prop) : Prop :=
  lists 47 /\ ~ lists 3 /\ ~ lists 4 /\ ~ lists 7 /\ (lists 6 -> lists 2) /\
  (lists 5 -> forall t, 32 <= t <= 39 -> ~ lists t) /\
  (lists 2 -> ~ lists 6 -> forall t, 256 <= t < 65536 -> ~ lists t).

(** RDATA of an NSEC record as a zone signs it: the next name is of any octets, in any case. *)
Definition OrdinaryNsec (d : list N) : Prop :=
  exists ls bits mask, LegalName ls /\ canonical_bitmap bits /\ BitmapEnc bits mask /\ OrdinaryTypes (has_type mask) /\ d = wire_name ls ++ bits.
