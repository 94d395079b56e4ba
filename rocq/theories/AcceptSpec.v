(** Specification of the verdict of [verify_rr_stream] as a whole: exactly which record lists are
    accepted, and with which result. Signatures are over the sorted RRset (C19; [sort_by rr_cmp] is the
    canonical order of C32 for the types without names in their RDATA). *)
From Verif Require Import Base RRM ValM NameSpec ValSpec.
Local Open Scope N_scope.

Section Accept.
  Variable e : env.
  Variable inp : list RR.

  (** The RRSIGs over the RRset [n], [ty], and the DNSKEYs of [z], in the order of the input. *)
  Definition sigs_over (n : list N) (ty : N) : list rrsig :=
    flat_map (fun r => match r with RR_RRSig s => if list_eq_dec N.eq_dec (rs_name s) n then if rs_ty s =? ty then [s] else [] else [] | _ => [] end) inp.
  Definition keys_at (z : list N) : list dnskey :=
    flat_map (fun r => match r with RR_DnsKey k => if list_eq_dec N.eq_dec (dk_name k) z then [k] else [] | _ => [] end) inp.
  Definition delegations (z : list N) : list ds :=
    if list_eq_dec N.eq_dec z [46] then root_anchors else flat_map ds_of (rrset inp z 43).

  (** [k] is the first of the keys satisfying [P] that the RRSIG can be for; that key decides. *)
  Definition Chosen (P : dnskey -> Prop) (s : rrsig) (keys : list dnskey) (k : dnskey) : Prop :=
    exists pre post, keys = pre ++ k :: post /\ Forall (fun k' => ~ (P k' /\ KeyFor s k')) pre /\ P k /\ KeyFor s k.
  Definition ValidSig (P : dnskey -> Prop) (keys : list dnskey) (s : rrsig) (rs : list RR) : Prop :=
    Forall (fun r => rr_ty r = rs_ty s) rs /\
    exists k msg, Chosen P s keys k /\ SignedData s (sort_by rr_cmp rs) msg /\ CryptoOk e s k msg.
  (** A signature which is not checked, because its algorithm is not implemented. *)
  Definition UnknownSig (P : dnskey -> Prop) (keys : list dnskey) (s : rrsig) (rs : list RR) : Prop :=
    Forall (fun r => rr_ty r = rs_ty s) rs /\ ~ supported_alg (rs_alg s) /\
    exists k msg, Chosen P s keys k /\ SignedData s (sort_by rr_cmp rs) msg.

  (** [s] is the RRSIG through which the DNSKEY RRset of [z] is trusted: the first one which is not of
      an unknown algorithm, valid under a key for which the delegation vouches. *)
  Definition KeySig (z : list N) (s : rrsig) : Prop :=
    exists pre post, sigs_over z 48 = pre ++ s :: post /\
      Forall (fun x => UnknownSig (DelegatedKey e (delegations z)) (keys_at z) x (rrset inp z 48)) pre /\
      ValidSig (DelegatedKey e (delegations z)) (keys_at z) s (rrset inp z 48).

  (** The other RRSIGs made by [z]; the valid ones; the ones passed over. *)
  Definition ZoneSig (z : list N) (s : rrsig) : Prop := In (RR_RRSig s) inp /\ rs_key_name s = z /\ rs_ty s <> 48.
  Definition GoodSig (z : list N) (s : rrsig) : Prop :=
    ZoneSig z s /\ ValidSig (fun _ => True) (keys_at z) s (rrset inp (rs_name s) (rs_ty s)).
  Definition PassedSig (z : list N) (s : rrsig) : Prop :=
    ZoneSig z s /\ UnknownSig (fun _ => True) (keys_at z) s (rrset inp (rs_name s) (rs_ty s)).

  (** The zones reached from the root. *)
  Inductive Visited : list N -> Prop :=
  | Vi_root : Visited [46]
  | Vi_child z s : Visited z -> GoodSig z s -> rs_ty s = 43 -> Visited (rs_name s).

  (** The signatures relied on, and the records which they cover. *)
  Definition Used (s : rrsig) : Prop := exists z, Visited z /\ (KeySig z s \/ GoodSig z s).
  Definition Proven (r : RR) : Prop :=
    exists z s, Visited z /\ GoodSig z s /\ rs_ty s <> 43 /\ In r (rrset inp (rs_name s) (rs_ty s)).

  (** What may be signed: not RRSIGs; and except for DS and NSEC RRsets the labels field counts all
      labels of the owner, or (but for NSEC3) fewer: a wildcard. *)
  Definition Fits (s : rrsig) : Prop :=
    rs_ty s <> 46 /\
    (rs_ty s = 43 \/ rs_ty s = 47 \/
     exists ls, LabelsOf (rs_name s) ls /\
       (rs_labels s = N.of_nat (length ls) \/ (rs_ty s <> 50 /\ rs_labels s < N.of_nat (length ls)))).

  Record Acceptable : Prop := {
    (** Every zone reached has trusted keys, *)
    ac_keys : forall z, Visited z -> exists s, KeySig z s;
    (** and no bad signature. *)
    ac_sigs : forall z s, Visited z -> ZoneSig z s ->
      (exists p, rs_name s = p ++ z) /\ (PassedSig z s \/ (GoodSig z s /\ Fits s));
    (** Something is proven. *)
    ac_some : exists r, Proven r;
    (** The root delegates, and no zone delegates itself. *)
    ac_root : exists s, GoodSig [46] s /\ rs_ty s = 43;
    ac_self : forall z s, Visited z -> GoodSig z s -> rs_ty s = 43 -> rs_name s <> z;
    (** There is a time at which all signatures are valid. *)
    ac_window : forall a b, Used a -> Used b -> resolve_time (rs_inception a) < resolve_time (rs_expiration b) }.

  (** The next closer name of a wildcard expansion signed by [z], and its denial by a proven NSEC or
      NSEC3 record whose owner ends in the name of [z]. *)
  Definition NeedsDenial (z nc : list N) (ty : N) : Prop :=
    exists s pre l suf, Visited z /\ GoodSig z s /\ rs_ty s <> 43 /\ rs_ty s <> 47 /\ ty = rs_ty s /\
      LabelsOf (rs_name s) (pre ++ l :: suf) /\ N.of_nat (length suf) = rs_labels s /\ nc = dotted (l :: suf).
  Definition DeniedUnder (z nc : list N) (ty : N) : Prop :=
    (exists n p, Proven (RR_NSec n) /\ ns_name n = p ++ z /\ nsec_weak n nc ty) \/
    (exists n p, Proven (RR_NSec3 n) /\ n3_name n = p ++ z /\ nsec3_weak e n nc ty).
  Definition Denials : Prop := forall z nc ty, NeedsDenial z nc ty -> DeniedUnder z nc ty.

  (** The records which, by the RFCs, deny [nc]: the name, or its hash, is strictly between that of the
      record and the next one; the next name of the last NSEC of a zone is that of the zone (RFC 4034
      4.1.1), and the next hash of the last NSEC3 is the first hash (RFC 5155 3.1.7). *)
  Definition nsec_covers (z : list N) (n : nsec) (nc : list N) : Prop :=
    name_lt (ns_name n) nc /\ (name_lt nc (ns_next n) \/ ns_next n = z).
  Definition nsec3_covers (n : nsec3) (nc : list N) : Prop :=
    exists h nh, nsec3_range e n nc h nh /\
      ((lex N.lt h nh /\ lex N.lt nh (n3_next_hash n)) \/
       (~ lex N.lt h (n3_next_hash n) /\ (lex N.lt h nh \/ lex N.lt nh (n3_next_hash n)))).
  Definition RfcDenials : Prop := forall z nc ty, NeedsDenial z nc ty ->
    (exists n p, Proven (RR_NSec n) /\ ns_name n = p ++ z /\ nsec_covers z n nc) \/
    (exists n p, Proven (RR_NSec3 n) /\ n3_name n = p ++ z /\ nsec3_covers n nc).
  (** The same without the last records. *)
  Definition InnerDenials : Prop := forall z nc ty, NeedsDenial z nc ty ->
    (exists n p, Proven (RR_NSec n) /\ ns_name n = p ++ z /\ nsec_strict n nc) \/
    (exists n p, Proven (RR_NSec3 n) /\ n3_name n = p ++ z /\ nsec3_strict e n nc).

  (** At most two sets of NSEC3 parameters in the zones from which a denial is needed. *)
  Definition TwoParams : Prop := forall z nc ty, NeedsDenial z nc ty -> exists p q : N * list N, forall n pre,
    Proven (RR_NSec3 n) -> n3_name n = pre ++ z -> n3_algo n = 1 -> n3_iters n <= 2500 -> (n3_iters n, n3_salt n) = p \/ (n3_iters n, n3_salt n) = q.
  (** A name needs denial by one zone only. *)
  Definition OneZone : Prop := forall z z' nc ty ty', NeedsDenial z nc ty -> NeedsDenial z' nc ty' -> z = z'.
End Accept.

(** The zones reached are in order: their keys are trusted and no signature is bad. *)
Definition InOrder (e : env) (inp : list RR) : Prop :=
  (forall z, Visited e inp z -> exists s, KeySig e inp z s) /\
  (forall z s, Visited e inp z -> ZoneSig inp z s -> (exists p, rs_name s = p ++ z) /\ (PassedSig inp z s \/ (GoodSig e inp z s /\ Fits s))).

(** No two DNSKEYs of a zone are alike in tag and algorithm; at most one RRSIG over a DNSKEY RRset. *)
Definition OneKey (inp : list RR) : Prop := forall k k', In (RR_DnsKey k) inp -> In (RR_DnsKey k') inp ->
  dk_name k = dk_name k' -> key_tag k = key_tag k' -> dk_alg k = dk_alg k' -> k = k'.
Definition OneKeySig (inp : list RR) : Prop := forall s s', In (RR_RRSig s) inp -> In (RR_RRSig s') inp ->
  rs_ty s = 48 -> rs_ty s' = 48 -> rs_name s = rs_name s' -> s = s'.
