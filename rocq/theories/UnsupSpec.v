(** Specification of what the verdict UnsupportedAlgorithm should tell: that a zone, authenticated from
    the root down, "wished to use the unsupported algorithm" (the documentation of the error). *)
From Verif Require Import Base RRM ValM NameSpec ValSpec AcceptSpec.
Local Open Scope N_scope.

(** The zones delegated to, from the root down: the zone above has trusted keys, is above, and has signed
    the DS RRset. *)
Inductive Cut (e : env) (inp : list RR) : list N -> Prop :=
| Cut_root : Cut e inp [46]
| Cut_child z s p : Cut e inp z -> (exists k, KeySig e inp z k) -> GoodSig e inp z s -> rs_ty s = 43 -> rs_name s = p ++ z ->
    Cut e inp (rs_name s).

(** The DS [d] is for the key [k]. *)
Definition Vouches (e : env) (d : ds) (k : dnskey) : Prop :=
  ds_alg d = dk_alg k /\ ds_key_tag d = key_tag k /\
  ((ds_digest_type d = 2 /\ ds_digest d = e_sha256 e (key_id k)) \/ (ds_digest_type d = 1 /\ ds_digest d = e_sha1 e (key_id k))).

(** The digest types known to the validator (of SHA-384 it has no implementation). *)
Definition KnownDigest (d : ds) : Prop := In (ds_digest_type d) [1; 2; 4].

(** The delegations [dss] ask for something the validator lacks: all have other digests, or one of them
    names a key, among [keys], of another algorithm. *)
Definition Wished (e : env) (dss : list ds) (keys : dnskey -> Prop) : Prop :=
  dss <> [] /\
  (Forall (fun d => ~ KnownDigest d) dss \/
   exists d k, In d dss /\ ~ supported_alg (ds_alg d) /\ keys k /\ Vouches e d k).

(** RFC 4035 5.2: a zone is to be treated as unsigned if the validator supports none of the algorithms in
    its DS RRset. *)
Definition NoneSupported (dss : list ds) : Prop :=
  dss <> [] /\ Forall (fun d => ~ (KnownDigest d /\ supported_alg (ds_alg d))) dss.
