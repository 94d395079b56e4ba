(** Specification of DNSSEC chain-of-trust validation (RFC 4033-4035), independent of the control flow
    of the validator. From the model only the record data types, the interface [env] of the external
    crypto, and three functions of the public API with their own specifications are used:
    [write_name] (C06), [write_data] (the RDLENGTH and RDATA emitted by [write_rr]: C07, C13) and
    [key_tag] (C14). *)
From Coq Require Import List NArith Permutation.
From Verif Require Import Base NameM WireM RRM ValM NameSpec RecSpec CodecSpec.
Import ListNotations.
Local Open Scope N_scope.

(** What the Rust types can hold: [Name]s are texts accepted by [Name::try_from], integers are in
    range. *)
Definition Held (r : RR) : Prop := typed_rr (fun n => name_try_from n = Some n) r.

(** [ls] are the labels of the name [n] (the root has none). *)
Definition LabelsOf (n : list N) (ls : list (list N)) : Prop :=
  n = dotted ls /\ Forall label_ok ls /\ ls <> [[]].

(** ** Signed data, RFC 4034 section 3.1.8.1 *)

(** The RRSIG RDATA up to the signature. *)
Definition rrsig_rdata (s : rrsig) : list N :=
  u16 (rs_ty s) ++ [rs_alg s; rs_labels s] ++ u32 (rs_orig_ttl s) ++ u32 (rs_expiration s)
  ++ u32 (rs_inception s) ++ u16 (rs_key_tag s) ++ write_name (rs_key_name s).

(** The owner name as signed: the name itself, or "*" followed by the rightmost [labels] labels. *)
Inductive SignedOwner (s : rrsig) (r : RR) : list N -> Prop :=
| SO_exact ls : LabelsOf (rr_name r) ls -> N.of_nat (length ls) = rs_labels s ->
    SignedOwner s r (write_name (rr_name r))
| SO_nsec : rr_ty r = 47 -> SignedOwner s r (write_name (rr_name r))
| SO_wildcard pre suf : rr_ty r <> 47 -> LabelsOf (rr_name r) (pre ++ suf) -> pre <> [] ->
    N.of_nat (length suf) = rs_labels s -> SignedOwner s r ([1; 42] ++ write_name (dotted suf)).

Definition SignedRR (s : rrsig) (r : RR) (piece : list N) : Prop :=
  exists owner, SignedOwner s r owner /\
    piece = owner ++ u16 (rr_ty r) ++ u16 1 ++ u32 (rs_orig_ttl s) ++ write_data r.

Definition SignedData (s : rrsig) (rs : list RR) (msg : list N) : Prop :=
  exists pieces, Forall2 (SignedRR s) rs pieces /\ msg = rrsig_rdata s ++ concat pieces.

(** ** Public-key check by the crypto library, by DNSSEC algorithm number. RSA keys under four octets or
    with an empty modulus are not accepted. *)
Inductive CryptoOk (e : env) (s : rrsig) (k : dnskey) (msg : list N) : Prop :=
| CO_rsa256 md ex : rs_alg s = 8 -> RsaLayout (dk_pubkey k) md ex -> md <> [] ->
    4 <= length_of (dk_pubkey k) ->
    e_sig e RSA_SHA256 (PK_RSA md ex) msg (rs_signature s) = true -> CryptoOk e s k msg
| CO_rsa512 md ex : rs_alg s = 10 -> RsaLayout (dk_pubkey k) md ex -> md <> [] ->
    4 <= length_of (dk_pubkey k) ->
    e_sig e RSA_SHA512 (PK_RSA md ex) msg (rs_signature s) = true -> CryptoOk e s k msg
| CO_p256 : rs_alg s = 13 -> e_sig e ECDSA_P256 (PK_raw (4 :: dk_pubkey k)) msg (rs_signature s) = true ->
    CryptoOk e s k msg
| CO_p384 : rs_alg s = 14 -> e_sig e ECDSA_P384 (PK_raw (4 :: dk_pubkey k)) msg (rs_signature s) = true ->
    CryptoOk e s k msg
| CO_ed25519 : rs_alg s = 15 -> e_sig e ED25519 (PK_raw (dk_pubkey k)) msg (rs_signature s) = true ->
    CryptoOk e s k msg.

(** A zone key for which the RRSIG says it was made (RFC 4035 5.3.1). *)
Definition KeyFor (s : rrsig) (k : dnskey) : Prop :=
  key_tag k = rs_key_tag s /\ dk_protocol k = 3 /\ N.testbit (dk_flags k) 8 = true /\ dk_alg k = rs_alg s.

(** [k] is the first of [keys] the RRSIG can be for. *)
Definition FirstKey (s : rrsig) (keys : list dnskey) (k : dnskey) : Prop :=
  exists pre post, keys = pre ++ k :: post /\ Forall (fun k' => ~ KeyFor s k') pre /\ KeyFor s k.

(** [s] is a valid signature by [k] of the RRset [rs] (in some order). *)
Definition SigBy (e : env) (k : dnskey) (s : rrsig) (rs : list RR) : Prop :=
  KeyFor s k /\ Forall (fun r => rr_ty r = rs_ty s) rs /\
  exists ordered msg, Permutation rs ordered /\ SignedData s ordered msg /\ CryptoOk e s k msg.

(** ** Delegation *)

(** RFC 4034 5.1.4: digest over owner name and DNSKEY RDATA. *)
Definition key_id (k : dnskey) : list N :=
  write_name (dk_name k) ++ u16 (dk_flags k) ++ [dk_protocol k; dk_alg k] ++ dk_pubkey k.

(** One of [dss] vouches for [k]; SHA-1 counts only without SHA-256 and SHA-384 (RFC 4509 3). *)
Definition DelegatedKey (e : env) (dss : list ds) (k : dnskey) : Prop :=
  exists d, In d dss /\ ds_alg d = dk_alg k /\ ds_key_tag d = key_tag k /\
    ((ds_digest_type d = 2 /\ ds_digest d = e_sha256 e (key_id k)) \/
     (ds_digest_type d = 1 /\ ds_digest d = e_sha1 e (key_id k) /\
      Forall (fun d' => ds_digest_type d' <> 2 /\ ds_digest_type d' <> 4) dss)).

(** The IANA root trust anchors (KSK-2010 and KSK-2017), digests as 256-bit numbers. *)
Fixpoint be_bytes (n : nat) (v : N) : list N :=
  match n with O => [] | S n' => (v / 256 ^ N.of_nat n') mod 256 :: be_bytes n' v end.
Definition anchor (tag digest : N) : ds :=
  {| ds_name := [46]; ds_key_tag := tag; ds_alg := 8; ds_digest_type := 2; ds_digest := be_bytes 32 digest |}.
Definition root_anchors : list ds :=
  [ anchor 19036 0x49AAC11D7B6F6446702E54A1607371607A1A41855200FD2CE1CDDE32F24E8FB5;
    anchor 20326 0xE06D44B80B8F1D39A95C0B0D7C65D08458E880409BBC683457104237C7F8EC8D ].

Section Chain.
  Variable e : env.
  Variable inp : list RR.
  (** Which RRSIGs may be relied on. *)
  Variable used : rrsig -> Prop.

  (** The records of [inp] with this owner and type. *)
  Definition rrset (n : list N) (ty : N) : list RR :=
    filter (fun r => if list_eq_dec N.eq_dec (rr_name r) n then rr_ty r =? ty else false) inp.
  Definition ds_of (r : RR) : list ds := match r with RR_DS d => [d] | _ => [] end.

  (** The DNSKEY RRset of [z] is signed by one of its keys for which [dss] vouches. *)
  Definition KeysVouched (dss : list ds) (z : list N) : Prop :=
    exists k s, In (RR_DnsKey k) (rrset z 48) /\ DelegatedKey e dss k /\
      In (RR_RRSig s) inp /\ used s /\ rs_name s = z /\ rs_ty s = 48 /\ SigBy e k s (rrset z 48).

  (** [s] is an RRSIG by zone [z] over its RRset, valid under one of [z]'s keys. *)
  Definition SignedByZone (z : list N) (s : rrsig) : Prop :=
    In (RR_RRSig s) inp /\ used s /\ rs_key_name s = z /\
    exists k, In (RR_DnsKey k) (rrset z 48) /\ SigBy e k s (rrset (rs_name s) (rs_ty s)).

  (** Zones whose DNSKEY RRset is authenticated from the root anchors. *)
  Inductive TrustedZone : list N -> Prop :=
  | TZ_root : KeysVouched root_anchors [46] -> TrustedZone [46]
  | TZ_child p z s : TrustedZone p -> SignedByZone p s -> rs_name s = z -> rs_ty s = 43 -> z <> [46] ->
      KeysVouched (flat_map ds_of (rrset z 43)) z -> TrustedZone z.

  (** [r] belongs to an RRset signed by a trusted zone. *)
  Definition Authentic (r : RR) : Prop :=
    exists z s, TrustedZone z /\ SignedByZone z s /\ In r (rrset (rs_name s) (rs_ty s)).
End Chain.

(** [dss] are the delegations of the zone [z]: the root anchors, or its DS RRset when that is signed by a
    trusted zone. *)
Definition Delegated (e : env) (inp : list RR) (z : list N) (dss : list ds) : Prop :=
  (z = [46] /\ dss = root_anchors) \/
  (exists p s, TrustedZone e inp (fun _ => True) p /\ SignedByZone e inp (fun _ => True) p s /\ rs_name s = z /\ rs_ty s = 43 /\
     dss = flat_map ds_of (rrset inp z 43)).

(** DNSSEC metadata types: DS, RRSIG, NSEC, DNSKEY, NSEC3. *)
Definition metadata (ty : N) : Prop := In ty [43; 46; 47; 48; 50].

(** ** Times (RFC 4034 3.1.5: seconds modulo 2^32) *)
Definition max_of (l : list N) : N := fold_right N.max 0 l.
(** [m] is the least element of the non-empty list [l]. *)
Definition is_min (m : N) (l : list N) : Prop := In m l /\ Forall (fun x => m <= x) l.
Definition is_max (m : N) (l : list N) : Prop := In m l /\ Forall (fun x => x <= m) l.

(** The zones reachable from the root through validly signed DS RRsets. *)
Inductive Reached (e : env) (inp : list RR) : list N -> Prop :=
| Re_root : Reached e inp [46]
| Re_child z s : Reached e inp z -> SignedByZone e inp (fun _ => True) z s -> rs_ty s = 43 ->
    Reached e inp (rs_name s).

(** Signature algorithms the validator implements. *)
Definition supported_alg (a : N) : Prop := In a [8; 10; 13; 14; 15].

(** ** Denial of existence (RFC 4034 6.1, RFC 5155) *)

(** Canonical order of names. *)
Definition name_lt (a b : list N) : Prop :=
  exists la lb, LabelsOf a la /\ LabelsOf b lb /\ canonical_lt la lb.
Definition name_le (a b : list N) : Prop := a = b \/ name_lt a b.

(** Bit [ty] of a type bitmap (RFC 4034 4.1.2: bit 0 is the most significant of octet 0). *)
Definition has_type (mask : list N) (ty : N) : Prop :=
  N.testbit (nth (N.to_nat (ty / 8)) mask 0) (7 - ty mod 8) = true.

(** RFC 5155 section 5: IH(salt, x, 0) = H(x || salt), IH(salt, x, k) = H(IH(salt, x, k-1) || salt). *)
Fixpoint n3_hash (e : env) (salt x : list N) (k : nat) : list N :=
  match k with
  | O => e_sha1 e (x ++ salt)
  | S k' => e_sha1 e (n3_hash e salt x k' ++ salt)
  end.
(** The hash in the owner name of an NSEC3 record. *)
Definition n3_owner_hash (n : nsec3) (h : list N) : Prop :=
  exists l ls, n3_name n = dots (l :: ls) /\ ~ In 46 l /\ Base32Hex l h /\ length_of h = 20.

(** The record says that there is nothing at [nc] (strictly between owner and next). *)
Definition nsec_strict (n : nsec) (nc : list N) : Prop :=
  name_lt (ns_name n) nc /\ name_lt nc (ns_next n).
(** ... or, weaker, that it has no record of type [ty], or that the owner is [nc] itself. *)
Definition nsec_weak (n : nsec) (nc : list N) (ty : N) : Prop :=
  (ns_name n = nc /\ ~ has_type (ns_types n) ty) \/
  (name_le (ns_name n) nc /\ name_lt nc (ns_next n)).
Definition nsec3_range (e : env) (n : nsec3) (nc h nh : list N) : Prop :=
  n3_algo n = 1 /\ n3_flags n = 0 /\ n3_iters n <= 2500 /\ n3_owner_hash n h /\
  nh = n3_hash e (n3_salt n) (write_name nc) (N.to_nat (n3_iters n)) /\ length_of (n3_next_hash n) = 20.
Definition nsec3_strict (e : env) (n : nsec3) (nc : list N) : Prop :=
  exists h nh, nsec3_range e n nc h nh /\ lex N.lt h nh /\ lex N.lt nh (n3_next_hash n).
Definition nsec3_weak (e : env) (n : nsec3) (nc : list N) (ty : N) : Prop :=
  exists h nh, nsec3_range e n nc h nh /\
    ((h = nh /\ ~ has_type (n3_types n) ty) \/ ((h = nh \/ lex N.lt h nh) /\ lex N.lt nh (n3_next_hash n))).

(** [r], covered by [s], was synthesised from a wildcard; [nc] is the next closer name: one label more
    than the wildcard's parent. *)
Definition NextCloser (s : rrsig) (r : RR) (nc : list N) : Prop :=
  exists pre l suf, LabelsOf (rr_name r) (pre ++ l :: suf) /\ N.of_nat (length suf) = rs_labels s /\
    nc = dotted (l :: suf).

(** The external sort returns a permutation of its argument. *)
Definition SortsNeeds (e : env) : Prop := forall l, Permutation l (e_sort_needs e l).

(** An authentic NSEC or NSEC3 record denies, weakly, the type [ty] at [nc]. *)
Definition WeaklyDenied (e : env) (inp : list RR) (nc : list N) (ty : N) : Prop :=
  (exists n, Authentic e inp (fun _ => True) (RR_NSec n) /\ nsec_weak n nc ty) \/
  (exists n, Authentic e inp (fun _ => True) (RR_NSec3 n) /\ nsec3_weak e n nc ty).
(** An authentic NSEC or NSEC3 record signed by zone [z] denies that anything exists at [nc]. *)
Definition StrictlyDenied (e : env) (inp : list RR) (z nc : list N) : Prop :=
  exists s, TrustedZone e inp (fun _ => True) z /\ SignedByZone e inp (fun _ => True) z s /\
    ((exists n, In (RR_NSec n) (rrset inp (rs_name s) (rs_ty s)) /\ nsec_strict n nc) \/
     (exists n, In (RR_NSec3 n) (rrset inp (rs_name s) (rs_ty s)) /\ nsec3_strict e n nc)).

(** An NSEC or NSEC3 record signed by zone [z] denies, weakly, the type [ty] at [nc]. *)
Definition WeaklyDeniedBy (e : env) (inp : list RR) (z nc : list N) (ty : N) : Prop :=
  exists s, SignedByZone e inp (fun _ => True) z s /\
    ((exists n, In (RR_NSec n) (rrset inp (rs_name s) (rs_ty s)) /\ nsec_weak n nc ty) \/
     (exists n, In (RR_NSec3 n) (rrset inp (rs_name s) (rs_ty s)) /\ nsec3_weak e n nc ty)).

(** The name [n] is [z] or below it, on a label boundary. *)
Definition Subdomain (n z : list N) : Prop := exists pre ls, LabelsOf n (pre ++ ls) /\ LabelsOf z ls.

(** An RRSIG over no records at all, whose labels field is 255. *)
Definition EmptyMaxLabels (inp : list RR) (s : rrsig) : Prop :=
  rrset inp (rs_name s) (rs_ty s) = [] /\ rs_labels s = 255 /\
  rs_ty s <> 43 /\ rs_ty s <> 46 /\ rs_ty s <> 47 /\ rs_ty s <> 48 /\ rs_ty s <> 50.

(** ** Dependence on the crypto library *)

(** The two libraries answer alike on the signature queries of [Q] (and in everything else). *)
Definition AgreeSig (Q : list (sigalg * pubkey * list N * list N)) (e e' : env) : Prop :=
  (forall x, e_sha1 e x = e_sha1 e' x) /\ (forall x, e_sha256 e x = e_sha256 e' x) /\
  (forall l, e_sort_needs e l = e_sort_needs e' l) /\
  forall a pk m sg, In (a, pk, m, sg) Q -> e_sig e a pk m sg = e_sig e' a pk m sg.
(** ... on the SHA-1 inputs of [Q]. *)
Definition AgreeSha1 (Q : list (list N)) (e e' : env) : Prop :=
  forall x, In x Q -> e_sha1 e x = e_sha1 e' x.
