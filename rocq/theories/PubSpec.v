(** A world of zones which sign whatever RRsets they like, of any type, at names of any octets: what is
    signed is given on the wire only (RFC 4034 3.1.8.1), not as records which this library can hold. *)
From Verif Require Import Base RRM ValM NameSpec WireSpec RecSpec ValSpec SecSpec.
Local Open Scope N_scope.

(** An RRset with the fields of its RRSIG. The names are lists of labels in any case; the RDATA are in
    canonical form, in any order. *)
Record pub := { pb_owner : list (list N); pb_type : N; pb_alg : N; pb_labels : N; pb_ttl : N;
  pb_expiration : N; pb_inception : N; pb_tag : N; pb_signer : list (list N); pb_data : list (list N) }.
Definition owner_octets (p : pub) : list N := wire_name (map lower (pb_owner p)).
Definition signer_octets (p : pub) : list N := wire_name (map lower (pb_signer p)).
(** What is signed. *)
Definition pub_octets (p : pub) : list N :=
  u16 (pb_type p) ++ pb_alg p :: pb_labels p :: u32 (pb_ttl p) ++ u32 (pb_expiration p) ++ u32 (pb_inception p) ++ u16 (pb_tag p)
    ++ signer_octets p ++ flat_map (fun d => owner_octets p ++ u16 (pb_type p) ++ u16 1 ++ u32 (pb_ttl p) ++ u16 (length_of d) ++ d) (pb_data p).

(** RFC 1035: labels of 1 to 63 octets, at most 255 octets. *)
Definition LegalName (ls : list (list N)) : Prop :=
  Forall (fun l => l <> [] /\ (length l <= 63)%nat) ls /\ (length (wire_name ls) <= 255)%nat.
(** RDATA is not too long; that of NS, CNAME and DNAME records is a name, and that of TXT records is not
    empty. *)
Definition LegalData (ty : N) (d : list N) : Prop :=
  length_of d <= 65535 /\ (In ty [2; 5; 39] -> exists ls, LegalName ls /\ d = wire_name ls) /\ (ty = 16 -> d <> []).
Definition LegalPub (p : pub) : Prop :=
  LegalName (pb_owner p) /\ LegalName (pb_signer p) /\ pb_data p <> [] /\ Forall (LegalData (pb_type p)) (pb_data p) /\
  pb_labels p = N.of_nat (length match pb_owner p with [42] :: t => t | _ => pb_owner p end).

Section WireWorld.
  Variable e : env.
  Variable KeyOf : list N -> dnskey -> Prop.
  Variable Honest : list N -> Prop.
  Variable Signs : list N -> pub -> Prop.

  (** As [World] of SecSpec.v; no signature of a zone is left out. *)
  Record WireWorld : Prop := {
    ww_unforged : forall z k s msg, Honest z -> KeyOf z k -> CryptoOk e s k msg -> exists p, Signs z p /\ msg = pub_octets p;
    ww_legal : forall z p, Signs z p -> LegalPub p;
    ww_root : forall k, Held (RR_DnsKey k) -> dk_name k = [46] -> DelegatedKey e root_anchors k -> KeyOf [46] k;
    ww_ds : forall z p k dss, Signs z p -> pb_type p = 43 -> Held (RR_DnsKey k) -> CanonName (owner_octets p) (dk_name k) ->
      Forall2 (fun d x => RData CanonName false 43 (dk_name k) (RR_DS x) d) (pb_data p) dss -> DelegatedKey e dss k -> KeyOf (dk_name k) k;
    ww_keys : forall z p k d, Signs z p -> pb_type p = 48 -> CanonName (owner_octets p) (dk_name k) -> In d (pb_data p) ->
      RData CanonName false 48 (dk_name k) (RR_DnsKey k) d -> KeyOf (dk_name k) k;
    ww_plain : forall z p, Signs z p -> pb_type p = 43 \/ pb_type p = 48 -> hd [] (pb_owner p) <> [42] }.

  (** The records of the name and type of [r] in the result mean just the RDATA of an RRset which [z] has
      signed, and are good for no longer than [z] said. *)
  Definition WirePublished (z : list N) (v : verified) (r : RR) : Prop :=
    exists p o, Signs z p /\ CanonName (signer_octets p) z /\ pb_type p = rr_ty r /\ CanonName (owner_octets p) o /\ Covers o (rr_name r) /\
      (forall d, In d (pb_data p) -> exists r', In r' (vr_rrs v) /\ RData CanonName false (rr_ty r) (rr_name r) r' d) /\
      (forall r', In r' (vr_rrs v) -> rr_name r' = rr_name r -> rr_ty r' = rr_ty r ->
        exists d, In d (pb_data p) /\ RData CanonName false (rr_ty r) (rr_name r) r' d) /\
      resolve_time (pb_inception p) <= vr_valid_from v /\ vr_expires v <= resolve_time (pb_expiration p) /\ vr_max_cache_ttl v <= pb_ttl p.
End WireWorld.

(** The same RRset as this library holds it, if it can. *)
Definition TextForm (p : pub) (s : rrsig) (rs : list RR) : Prop :=
  CanonName (owner_octets p) (rs_name s) /\ CanonName (signer_octets p) (rs_key_name s) /\ Held (RR_RRSig s) /\
  rs_ty s = pb_type p /\ rs_alg s = pb_alg p /\ rs_labels s = pb_labels p /\ rs_orig_ttl s = pb_ttl p /\ rs_expiration s = pb_expiration p /\
  rs_inception s = pb_inception p /\ rs_key_tag s = pb_tag p /\ Forall2 (RData CanonName false (pb_type p) (rs_name s)) rs (pb_data p).
Definition text_signed (Signs : list N -> pub -> Prop) (z : list N) (s : rrsig) (rs : list RR) : Prop := exists p, Signs z p /\ TextForm p s rs.
