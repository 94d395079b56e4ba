(** Specification of C86: zones whose keys are signed several times, as while a key is replaced
    (RFC 6781 4.1.2). *)
From Verif Require Import Base RRM ValM NameSpec ValSpec AcceptSpec.
From Coq Require Import Permutation.
Local Open Scope N_scope.

Section Roll.
  Variables (e : env) (inp : list RR).
  (** Each RRSIG over the DNSKEY RRset of a zone reached is by a key satisfying [P] (or of an algorithm
      which is not implemented). *)
  Definition KeysSignedBy (P : list N -> dnskey -> Prop) : Prop := forall z s, Visited e inp z -> In s (sigs_over inp z 48) ->
    ValidSig e (P z) (keys_at inp z) s (rrset inp z 48) \/ UnknownSig (P z) (keys_at inp z) s (rrset inp z 48).
  (** By keys for which the delegation vouches: DS records for all keys in use were published beforehand. *)
  Definition AllVouched : Prop := KeysSignedBy (fun z => DelegatedKey e (delegations inp z)).
  (** By any keys of the zone: a new key signs before there is a DS record for it. *)
  Definition AllSigned : Prop := KeysSignedBy (fun _ _ => True).
  (** There is a time at which all these RRSIGs and all others relied on are valid. *)
  Definition Relied (s : rrsig) : Prop := Used e inp s \/ exists z, Visited e inp z /\ In s (sigs_over inp z 48).
  Definition AllCurrent : Prop := forall a b, Relied a -> Relied b -> resolve_time (rs_inception a) < resolve_time (rs_expiration b).
End Roll.

(** Accepted in any other order as well, with the same records. *)
Definition AnyOrder (e : env) (inp : list RR) (v : verified) : Prop := forall inp', Permutation inp inp' ->
  exists fuel v', verify_rr_stream e false fuel inp' = Ok v' /\ Permutation (vr_rrs v) (vr_rrs v').
