(** The verdict on a proof as octets: the chain of trust of AcceptSpec.v with the signatures of the RFCs, over the
    records as they are on the wire (CanonSpec.v). *)
From Coq Require Import List NArith Permutation.
From Verif Require Import Base NameSpec WireSpec BitmapSpec RecSpec RRM ValM ValSpec AcceptSpec CanonSpec.
Import ListNotations.
Local Open Scope N_scope.

(** A record of a stream as the RFCs allow it: one which may be signed, or an RRSIG. *)
Definition SigData (data : list N) : Prop := exists head signer sig, length_of head = 18 /\ proper signer /\ data = head ++ wire_name signer ++ sig.
Definition LegalRecord (w : wire_rr) : Prop :=
  is_bytes (wr_octets w) /\ proper (wr_owner w) /\ ((exists d, CanonicalRData (wr_type w) (wr_data w) d) \/ (wr_type w = 46 /\ SigData (wr_data w))).
(** What the record says, by the grammar of RecSpec.v; its owner in lower case. *)
Definition owner_text (w : wire_rr) : list N := dotted (map lower (wr_owner w)).
Definition Reads (w : wire_rr) (r : RR) : Prop := RData NamePlain false (wr_type w) (owner_text w) r (wr_data w).

Section Whole.
  Variable e : env.
  (** The records of the proof on the wire, and what they say. *)
  Variable ws : list wire_rr.
  Variable inp : list RR.

  Definition set_of (n : list N) (ty : N) : list wire_rr :=
    filter (fun w => if list_eq_dec N.eq_dec (owner_text w) n then wr_type w =? ty else false) ws.
  (** What the RRSIG should sign: its RRset in canonical form and order. *)
  Definition ToSign (s : rrsig) (msg : list N) : Prop :=
    exists ordered, Permutation (set_of (rs_name s) (rs_ty s)) ordered /\ InCanonicalOrder ordered /\ SignedOctets s ordered msg.
  Definition WValid (P : dnskey -> Prop) (keys : list dnskey) (s : rrsig) : Prop :=
    exists k msg, Chosen P s keys k /\ ToSign s msg /\ CryptoOk e s k msg.
  Definition WUnknown (P : dnskey -> Prop) (keys : list dnskey) (s : rrsig) : Prop :=
    ~ supported_alg (rs_alg s) /\ exists k msg, Chosen P s keys k /\ ToSign s msg.

  (** As in AcceptSpec.v: *)
  Definition WKeySig (z : list N) (s : rrsig) : Prop :=
    exists pre post, sigs_over inp z 48 = pre ++ s :: post /\
      Forall (WUnknown (DelegatedKey e (delegations inp z)) (keys_at inp z)) pre /\
      WValid (DelegatedKey e (delegations inp z)) (keys_at inp z) s.
  Definition WGoodSig (z : list N) (s : rrsig) : Prop := ZoneSig inp z s /\ WValid (fun _ => True) (keys_at inp z) s.
  Definition WPassedSig (z : list N) (s : rrsig) : Prop := ZoneSig inp z s /\ WUnknown (fun _ => True) (keys_at inp z) s.
  Inductive WVisited : list N -> Prop :=
  | WV_root : WVisited [46]
  | WV_child z s : WVisited z -> WGoodSig z s -> rs_ty s = 43 -> WVisited (rs_name s).
  Definition WUsed (s : rrsig) : Prop := exists z, WVisited z /\ (WKeySig z s \/ WGoodSig z s).
  Definition WProven (r : RR) : Prop :=
    exists z s, WVisited z /\ WGoodSig z s /\ rs_ty s <> 43 /\ In r inp /\ rr_name r = rs_name s /\ rr_ty r = rs_ty s.
  Record WAcceptable : Prop := {
    wa_keys : forall z, WVisited z -> exists s, WKeySig z s;
    wa_sigs : forall z s, WVisited z -> ZoneSig inp z s -> (exists p, rs_name s = p ++ z) /\ (WPassedSig z s \/ (WGoodSig z s /\ Fits s));
    wa_some : exists r, WProven r;
    wa_root : exists s, WGoodSig [46] s /\ rs_ty s = 43;
    wa_self : forall z s, WVisited z -> WGoodSig z s -> rs_ty s = 43 -> rs_name s <> z;
    wa_window : forall a b, WUsed a -> WUsed b -> resolve_time (rs_inception a) < resolve_time (rs_expiration b) }.
  Definition WNeedsDenial (z nc : list N) (ty : N) : Prop :=
    exists s pre l suf, WVisited z /\ WGoodSig z s /\ rs_ty s <> 43 /\ rs_ty s <> 47 /\ ty = rs_ty s /\
      LabelsOf (rs_name s) (pre ++ l :: suf) /\ N.of_nat (length suf) = rs_labels s /\ nc = dotted (l :: suf).
  Definition WDenials : Prop := forall z nc ty, WNeedsDenial z nc ty ->
    (exists n p, WProven (RR_NSec n) /\ ns_name n = p ++ z /\ nsec_weak n nc ty) \/
    (exists n p, WProven (RR_NSec3 n) /\ n3_name n = p ++ z /\ nsec3_weak e n nc ty).
  Definition WTwoParams : Prop := forall z nc ty, WNeedsDenial z nc ty -> exists p q : N * list N, forall n pre,
    WProven (RR_NSec3 n) -> n3_name n = pre ++ z -> n3_algo n = 1 -> n3_iters n <= 2500 -> (n3_iters n, n3_salt n) = p \/ (n3_iters n, n3_salt n) = q.
  Definition WOneZone : Prop := forall z z' nc ty ty', WNeedsDenial z nc ty -> WNeedsDenial z' nc ty' -> z = z'.

  (** What the validator needs besides (C89), of each RRSIG and the records which it covers; RRSIGs are not signed
      (RFC 4035 2.2), and no name has 255 labels. *)
  Definition Tidy : Prop := Forall FullStrings ws /\ Forall LowerNext ws /\
    forall s, In (RR_RRSig s) inp -> rs_ty s <> 46 /\ rs_labels s <> 255 /\
      Forall (NsecOwner s) (set_of (rs_name s) (rs_ty s)) /\ Orderly (set_of (rs_name s) (rs_ty s)).
End Whole.
