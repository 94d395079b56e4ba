(** Specification of what the validator is for: only what the zones have published is returned. A world
    consists of zones with their keys, some of them honest, and of the RRsets which these have signed.
    That signatures cannot be forged is a hypothesis on the crypto library. *)
From Verif Require Import Base RRM ValM NameSpec RecSpec CodecSpec ValSpec.
From Coq Require Import Permutation.
Local Open Scope N_scope.

(** The record with another owner. *)
Definition rename (o : list N) (r : RR) : RR :=
  match r with
  | RR_A x => RR_A {| a_name := o; a_addr := a_addr x |}
  | RR_AAAA x => RR_AAAA {| a6_name := o; a6_addr := a6_addr x |}
  | RR_NS x => RR_NS {| nr_name := o; nr_server := nr_server x |}
  | RR_Txt x => RR_Txt {| tx_name := o; tx_data := tx_data x |}
  | RR_TLSA x => RR_TLSA {| tl_name := o; tl_usage := tl_usage x; tl_selector := tl_selector x; tl_data_ty := tl_data_ty x; tl_data := tl_data x |}
  | RR_CName x => RR_CName {| cn_name := o; cn_canonical := cn_canonical x |}
  | RR_DName x => RR_DName {| dn_name := o; dn_delegation := dn_delegation x |}
  | RR_DnsKey x => RR_DnsKey {| dk_name := o; dk_flags := dk_flags x; dk_protocol := dk_protocol x; dk_alg := dk_alg x; dk_pubkey := dk_pubkey x |}
  | RR_DS x => RR_DS {| ds_name := o; ds_key_tag := ds_key_tag x; ds_alg := ds_alg x; ds_digest_type := ds_digest_type x; ds_digest := ds_digest x |}
  | RR_RRSig x => RR_RRSig {| rs_name := o; rs_ty := rs_ty x; rs_alg := rs_alg x; rs_labels := rs_labels x; rs_orig_ttl := rs_orig_ttl x;
      rs_expiration := rs_expiration x; rs_inception := rs_inception x; rs_key_tag := rs_key_tag x; rs_key_name := rs_key_name x; rs_signature := rs_signature x |}
  | RR_NSec x => RR_NSec {| ns_name := o; ns_next := ns_next x; ns_types := ns_types x |}
  | RR_NSec3 x => RR_NSec3 {| n3_name := o; n3_algo := n3_algo x; n3_flags := n3_flags x; n3_iters := n3_iters x; n3_salt := n3_salt x;
      n3_next_hash := n3_next_hash x; n3_types := n3_types x |}
  end.

(** [n] is [o], or an instance of the wildcard [o]. *)
Definition Covers (o n : list N) : Prop :=
  n = o \/ exists pre suf, pre <> [] /\ LabelsOf n (pre ++ suf) /\ o = dotted ([42] :: suf).

(** ** What a zone signs: RFC 4034 3.1.8.1, octet for octet, the RDATA in any encoding *)
Definition PubRecord (s : rrsig) (r : RR) (b : list N) : Prop :=
  exists owner data, CanonName owner (rr_name r) /\ RData CanonName false (rr_ty r) (rr_name r) r data /\
    (rr_ty r = 16 -> data <> []) /\ length_of data <= 65535 /\
    b = owner ++ u16 (rr_ty r) ++ u16 1 ++ u32 (rs_orig_ttl s) ++ u16 (length_of data) ++ data.
Definition PubData (s : rrsig) (rs : list RR) (msg : list N) : Prop :=
  exists signer pieces, CanonName signer (rs_key_name s) /\ Forall2 (PubRecord s) rs pieces /\
    msg = u16 (rs_ty s) ++ rs_alg s :: rs_labels s :: u32 (rs_orig_ttl s) ++ u32 (rs_expiration s)
          ++ u32 (rs_inception s) ++ u16 (rs_key_tag s) ++ signer ++ concat pieces.

(** The labels field does not count a leading "*". *)
Definition RfcLabels (s : rrsig) : Prop :=
  exists ls, proper ls /\ rs_name s = dotted ls /\
    rs_labels s = N.of_nat (length match ls with [42] :: t => t | _ => ls end).
Definition is_wildcard (n : list N) : Prop := exists p, n = 42 :: 46 :: p.

(** A record whose signed octets can be read in one way only: no RRSIG, and no empty labels in the next
    name of an NSEC record (the parser makes such a name of a label with a dot at its end). *)
Definition clear (r : RR) : Prop := rr_ty r <> 46 /\ match r with RR_NSec x => proper_name (ns_next x) | _ => True end.
(** Messages about which the validator may ask the crypto library: those for an RRset of the types which
    it knows. A zone may sign others as well. *)
Definition Asked (msg : list N) : Prop :=
  exists s n rs, Held (RR_RRSig s) /\ rs <> [] /\ SignedData s rs msg /\
    Forall (fun r => Held r /\ fits_rr r /\ clear r /\ rr_name r = n /\ rr_ty r = rs_ty s) rs.

Section World.
  Variable e : env.
  (** The keys of each zone; the zones whose keys only they themselves can sign with; the RRsets which
      these have signed, each with its RRSIG. *)
  Variable KeyOf : list N -> dnskey -> Prop.
  Variable Honest : list N -> Prop.
  Variable Signed : list N -> rrsig -> list RR -> Prop.

  Record World : Prop := {
    (** No forgery: only signatures made by the zone verify under its keys. *)
    wo_unforged : forall z k s msg, Honest z -> KeyOf z k -> CryptoOk e s k msg -> Asked msg -> exists s0 rs, Signed z s0 rs /\ PubData s0 rs msg;
    (** Honest zones sign RRsets: records of one owner and type, at least one. *)
    wo_rrset : forall z s rs, Signed z s rs -> Held (RR_RRSig s) /\ RfcLabels s /\ rs <> [] /\
      Forall (fun r => rr_name r = rs_name s /\ rr_ty r = rs_ty s) rs;
    (** The root anchors stand for the keys of the root only. *)
    wo_root : forall k, Held (RR_DnsKey k) -> dk_name k = [46] -> DelegatedKey e root_anchors k -> KeyOf [46] k;
    (** The DS and DNSKEY records signed by honest zones are right, and not at a wildcard. *)
    wo_ds : forall z s rs k, Signed z s rs -> rs_ty s = 43 -> Held (RR_DnsKey k) -> dk_name k = rs_name s ->
      DelegatedKey e (flat_map ds_of rs) k -> KeyOf (rs_name s) k;
    wo_keys : forall z s rs k, Signed z s rs -> rs_ty s = 48 -> In (RR_DnsKey k) rs -> KeyOf (dk_name k) k;
    wo_plain : forall z s rs, Signed z s rs -> rs_ty s = 43 \/ rs_ty s = 48 -> ~ is_wildcard (rs_name s) }.

  (** [r] of the result is as published by [z], and so is the whole RRset; it is good for no longer than
      [z] said. *)
  Definition Published (z : list N) (v : verified) (r : RR) : Prop :=
    exists s rs, Signed z s rs /\ rs_key_name s = z /\ rs_ty s = rr_ty r /\ Covers (rs_name s) (rr_name r) /\
      (forall x, In x rs <-> exists r', In r' (vr_rrs v) /\ rr_name r' = rr_name r /\ rr_ty r' = rr_ty r /\ x = rename (rs_name s) r') /\
      resolve_time (rs_inception s) <= vr_valid_from v /\ vr_expires v <= resolve_time (rs_expiration s) /\
      vr_max_cache_ttl v <= rs_orig_ttl s.
End World.
