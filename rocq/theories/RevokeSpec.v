(** Specification for revoked keys (RFC 5011 2.1): bit 8 of the flags of a DNSKEY record, counted from the left. *)
From Verif Require Import Base RRM ValM ValSpec.
Local Open Scope N_scope.

Definition Revoked (k : dnskey) : Prop := N.testbit (dk_flags k) 7 = true.
(** The DS record [d] was made for the key [k] (RFC 4034 5.1.4). *)
Definition MadeFor (e : env) (d : ds) (k : dnskey) : Prop :=
  (ds_digest_type d = 2 -> ds_digest d = e_sha256 e (key_id k)) /\ (ds_digest_type d = 1 -> ds_digest d = e_sha1 e (key_id k)).
Definition Collision (h : list N -> list N) : Prop := exists x y, x <> y /\ h x = h y.
(** The DNSKEY RRset of [z] is signed by a key which [dss] vouch for and which is not revoked. *)
Definition VouchedAlive (e : env) (inp : list RR) (dss : list ds) (z : list N) : Prop :=
  exists k s, In (RR_DnsKey k) (rrset inp z 48) /\ DelegatedKey e dss k /\ ~ Revoked k /\
    In (RR_RRSig s) inp /\ rs_name s = z /\ rs_ty s = 48 /\ SigBy e k s (rrset inp z 48).
(** [r] belongs to an RRset which a key of a trusted zone has signed that is not revoked. *)
Definition SignedAlive (e : env) (inp : list RR) (r : RR) : Prop :=
  exists z s k, TrustedZone e inp (fun _ => True) z /\ In (RR_RRSig s) inp /\ rs_key_name s = z /\
    In (RR_DnsKey k) (rrset inp z 48) /\ ~ Revoked k /\ SigBy e k s (rrset inp (rs_name s) (rs_ty s)) /\ In r (rrset inp (rs_name s) (rs_ty s)).
