(** Property C74: what the error UnsupportedAlgorithm tells. The documentation of the error (validation.rs:39-44) says that the data
    should then be used unverified, "as we were able to verify that a zone wished to use the unsupported algorithm". *)
From Verif Require Import Base RRM ValM NameSpec RecSpec ValSpec ValW AcceptSpec SecSpec SecW UnsupSpec UnsupP UnsupW.
From Coq Require Import String Permutation.
Local Open Scope N_scope.

(** C74. The error means that some zone, other than the root, delegated to by signed DS RRsets from the root down, has only DS
    records of unknown digest types, or has a DS record for a key of an algorithm which is not implemented ... *)
Theorem C74_wished_partial : forall e inp, Forall Held inp -> forall dbg fuel, verify_rr_stream e dbg fuel inp = Err UnsupportedAlgorithm ->
  exists z, Cut e inp z /\ z <> [46] /\ Wished e (flat_map ds_of (rrset inp z 43)) (fun k => In (RR_DnsKey k) (rrset inp z 48)).
Proof. exact unsup_wished. Qed.
Print Assumptions C74_wished_partial.
(** ... and if the zones above it are honest, that DS RRset is one of theirs. *)
Theorem C74_published : forall e KeyOf Honest Signed, World e KeyOf Honest Signed -> forall inp, Forall Held inp -> Forall fits_rr inp ->
  forall dbg fuel, verify_rr_stream e dbg fuel inp = Err UnsupportedAlgorithm ->
  exists z, Cut e inp z /\ z <> [46] /\
    ((forall d p, z = p ++ d -> p <> [] -> proper_name d -> Honest d) ->
     exists zp s rs p, z = p ++ zp /\ Signed zp s rs /\ rs_ty s = 43 /\ rs_name s = z /\ Permutation (rrset inp z 43) rs /\
       Wished e (flat_map ds_of rs) (fun k => In (RR_DnsKey k) (rrset inp z 48))).
Proof. exact unsup_published. Qed.
Print Assumptions C74_published.
(** So with honest zones whose DS records are all of implemented digests and algorithms, no input leads to this error. *)
Theorem C74_supported : forall e KeyOf Honest Signed, World e KeyOf Honest Signed -> forall inp, Forall Held inp -> Forall fits_rr inp ->
  forall dbg fuel, (forall z, Honest z) ->
  (forall z s rs d, Signed z s rs -> In (RR_DS d) rs -> KnownDigest d /\ supported_alg (ds_alg d)) ->
  verify_rr_stream e dbg fuel inp <> Err UnsupportedAlgorithm.
Proof. exact unsup_never. Qed.
Print Assumptions C74_supported.

(** But it does not mean that there is a zone for which the validator supports none of the algorithms, the condition of RFC 4035
    section 5.2 for using data unverified. Whoever sends the records can leave out the signatures of the supported ones. *)
Theorem C74_none_refuted : ~ (forall e KeyOf Honest Signed dbg fuel inp, World e KeyOf Honest Signed -> (forall z, Honest z) -> Forall Held inp -> Forall fits_rr inp ->
  verify_rr_stream e dbg fuel inp = Err UnsupportedAlgorithm -> exists z, Cut e inp z /\ NoneSupported (flat_map ds_of (rrset inp z 43))).
Proof. exact none_refuted. Qed.
Print Assumptions C74_none_refuted.
(** And a single zone in other hands is enough for the error, whatever was asked for. *)
Theorem C74_dishonest_refuted : ~ (forall e KeyOf Honest Signed dbg fuel inp, World e KeyOf Honest Signed -> Honest [46] -> Forall Held inp -> Forall fits_rr inp ->
  (forall z s rs d, Signed z s rs -> In (RR_DS d) rs -> KnownDigest d /\ supported_alg (ds_alg d)) ->
  verify_rr_stream e dbg fuel inp <> Err UnsupportedAlgorithm).
Proof. exact dishonest_refuted. Qed.
Print Assumptions C74_dishonest_refuted.

(** The zone a. has keys of algorithms 8 and 12. Its answer verifies; with another address, and the signature of its keys replaced
    by one under algorithm 12 which nobody made, the error is as if the zone could not be verified at all. *)
Example ex_C74 : World u_env u_keys (fun _ => True) u_signed /\
  (exists v, verify_rr_stream u_env false 10 u_answer = Ok v /\ vr_rrs v = [x_other]) /\
  verify_rr_stream u_env false 10 u_strip = Err UnsupportedAlgorithm /\
  u_signed (bs ".") (x_sig "a." 43 1 x_root) [x_ds; u_ds] /\
  Wished u_env (flat_map ds_of [x_ds; u_ds]) (fun k => In (RR_DnsKey k) (rrset u_strip (bs "a.") 48)).
Proof. exact u_wished. Qed.
