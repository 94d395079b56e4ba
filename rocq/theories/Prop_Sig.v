(** Properties C19, C27-C32: single signatures and delegations. *)
From Verif Require Import Base NameM WireM RRM SerM ValM NameSpec RecSpec CodecSpec ValSpec SignedSpec ValP3 ValP4 ValP5 OrdRR ValW ValW2 SortW.
From Coq Require Import String Permutation.
Local Open Scope N_scope.

(** C19. [wf_rr]: a record with a proper name and RDATA which fits its length fields. *)
Theorem C19_signed_bytes : forall e s keys rs, Held (RR_RRSig s) -> proper_name (rs_key_name s) -> Forall wf_rr rs ->
  Forall (fun k => is_bytes (dk_pubkey k)) keys ->
  (verify_rrsig e false s keys rs = Ok tt <->
   Forall (fun r => rr_ty r = rs_ty s) rs /\
   exists k msg, FirstKey s keys k /\ SignedWire s (sort_by rr_cmp rs) msg /\ CryptoOk e s k msg).
Proof. exact verify_rrsig_wire. Qed.
Print Assumptions C19_signed_bytes.
(** For the types without names in their RDATA, the sorted order is the canonical one. *)
Theorem C19_signed_bytes_canonical : forall e s keys rs n, Held (RR_RRSig s) -> proper_name (rs_key_name s) -> Forall wf_rr rs ->
  Forall (fun k => is_bytes (dk_pubkey k)) keys -> Forall (fun r => rr_name r = n) rs -> plain_type (rs_ty s) ->
  (verify_rrsig e false s keys rs = Ok tt <->
   Forall (fun r => rr_ty r = rs_ty s) rs /\
   exists k msg ordered, FirstKey s keys k /\ Permutation rs ordered /\ CanonicalOrder ordered /\
     SignedWire s ordered msg /\ CryptoOk e s k msg).
Proof. exact verify_rrsig_exact. Qed.
Print Assumptions C19_signed_bytes_canonical.
(** Also for names with empty labels, in terms of [write_name] and [write_data]; and in debug builds. *)
Theorem C19_signed_bytes_any_name : forall e s keys rs, Held (RR_RRSig s) -> Forall Held rs ->
  Forall (fun k => is_bytes (dk_pubkey k)) keys ->
  (verify_rrsig e false s keys rs = Ok tt <->
   Forall (fun r => rr_ty r = rs_ty s) rs /\
   exists k msg, FirstKey s keys k /\ SignedData s (sort_by rr_cmp rs) msg /\ CryptoOk e s k msg).
Proof. exact ValP.verify_rrsig_spec. Qed.
Print Assumptions C19_signed_bytes_any_name.
Theorem C19_debug_same : forall e s keys rs, Forall (fun r => Held r /\ write_data_overflows r = false) rs ->
  verify_rrsig e true s keys rs = verify_rrsig e false s keys rs.
Proof. exact verify_rrsig_builds. Qed.
Print Assumptions C19_debug_same.
(** One A record from a wildcard: an environment which accepts exactly the RFC's bytes. *)
Definition exact_bytes : list N :=
  [0; 1; 8; 1; 0; 0; 14; 16; 119; 53; 148; 0; 59; 154; 202; 0; 79; 102; 1; 97; 0]
  ++ [1; 42; 1; 97; 0; 0; 1; 0; 1; 0; 0; 14; 16; 0; 4; 127; 0; 0; 1].
Definition exact_env : env :=
  {| e_sha1 := fun _ => []; e_sha256 := fun _ => []; e_sig := fun _ _ m _ => bytes_eqb m exact_bytes; e_sort_needs := fun l => l |}.
Example C19_example :
  verify_rrsig exact_env false (w_rrsig "x.a." 1 1 "a.") [key_of "a."] [w_a "x.a."] = Ok tt /\
  verify_rrsig exact_env false (w_rrsig "x.a." 1 2 "a.") [key_of "a."] [w_a "x.a."] = Err Invalid.
Proof. split; vm_compute; reflexivity. Qed.

(** C27. *)
Theorem C27_keys_vouched : forall e dbg sigs dss keys s, Forall (fun k => Held (RR_DnsKey k)) keys ->
  Forall (fun s => Held (RR_RRSig s)) sigs -> verify_dnskeys e dbg sigs dss keys = Ok s ->
  In s sigs /\ exists k, In k keys /\ DelegatedKey e dss k /\ SigBy e k s (map RR_DnsKey keys).
Proof. exact dnskeys_accepted. Qed.
Print Assumptions C27_keys_vouched.
Theorem C27_vouched_keys_exact : forall e dss keys k, Forall (fun k => is_u16 (dk_flags k)) keys ->
  (In k (validated_dnskeys e dss keys) <-> In k keys /\ DelegatedKey e dss k).
Proof. exact validated_spec. Qed.
Print Assumptions C27_vouched_keys_exact.
Theorem C27_unknown_digests : forall e dbg sigs dss keys, dss <> [] ->
  Forall (fun d => ~ In (ds_digest_type d) [1; 2; 4]) dss -> verify_dnskeys e dbg sigs dss keys = Err UnsupportedAlgorithm.
Proof. exact dnskeys_unknown. Qed.
Print Assumptions C27_unknown_digests.
Theorem C27_no_delegation : forall e dbg sigs keys, verify_dnskeys e dbg sigs [] keys = Err Invalid.
Proof. exact dnskeys_empty. Qed.
Print Assumptions C27_no_delegation.
(** A SHA-1 DS is enough alone and useless beside a SHA-384 one. *)
Example C27_example :
  let sha1 := {| ds_name := bs "a."; ds_key_tag := 20326; ds_alg := 8; ds_digest_type := 1; ds_digest := [] |} in
  let sha384 := {| ds_name := bs "a."; ds_key_tag := 20326; ds_alg := 8; ds_digest_type := 4; ds_digest := [1] |} in
  verify_dnskeys toy_env false [w_rrsig "a." 48 1 "a."] [sha1] [key_of "a."] = Ok (w_rrsig "a." 48 1 "a.") /\
  verify_dnskeys toy_env false [w_rrsig "a." 48 1 "a."] [sha1; sha384] [key_of "a."] = Err Invalid.
Proof. cbv zeta. split; vm_compute; reflexivity. Qed.

(** C28. *)
(** Reported only for a delegated zone whose digests, or whose DNSKEY signatures, are all unknown. *)
Theorem C28_only_unsupported : forall e dbg inp, Forall Held inp -> forall fuel,
  verify_rr_stream e dbg fuel inp = Err UnsupportedAlgorithm ->
  exists z dss, Delegated e inp z dss /\ dss <> [] /\
    (Forall (fun d => ~ In (ds_digest_type d) [1; 2; 4]) dss \/
     ((exists s, In (RR_RRSig s) inp /\ rs_name s = z /\ rs_ty s = 48) /\
      forall s, In (RR_RRSig s) inp -> rs_name s = z -> rs_ty s = 48 -> ~ supported_alg (rs_alg s))).
Proof. exact verify_unsupported. Qed.
Print Assumptions C28_only_unsupported.
(** Never [Ok]: every reached zone has an implemented digest and signature algorithm. *)
Theorem C28_never_ok : forall e dbg fuel inp v z, Forall Held inp -> verify_rr_stream e dbg fuel inp = Ok v -> Reached e inp z ->
  (exists d, (if list_eq_dec N.eq_dec z [46] then In d root_anchors else In (RR_DS d) (rrset inp z 43)) /\
     (ds_digest_type d = 1 \/ ds_digest_type d = 2)) /\
  (exists s, In (RR_RRSig s) inp /\ rs_name s = z /\ rs_ty s = 48 /\ supported_alg (rs_alg s)).
Proof. exact verified_supported. Qed.
Print Assumptions C28_never_ok.
(** Reported when all the zone's DNSKEY signatures are by vouched-for keys of unknown algorithms (and, by
    [C27_unknown_digests], when all its digests are unknown). *)
Theorem C28_reported_partial : forall e sigs dss keys, Forall (fun k => Held (RR_DnsKey k)) keys ->
  Forall (fun s => Held (RR_RRSig s)) sigs -> (exists d, In d dss /\ In (ds_digest_type d) [1; 2; 4]) -> sigs <> [] ->
  Forall (fun s => ~ supported_alg (rs_alg s) /\ rs_ty s = 48 /\
    exists k msg, FirstKey s (validated_dnskeys e dss keys) k /\ SignedData s (sort_by rr_cmp (map RR_DnsKey keys)) msg) sigs ->
  verify_dnskeys e false sigs dss keys = Err UnsupportedAlgorithm.
Proof. exact dnskeys_all_unsupported. Qed.
Print Assumptions C28_reported_partial.
(** Missing: digest type 4, which is not implemented, is reported as [Invalid]. *)
Theorem C28_sha384_refuted : ~ (forall e sigs dss keys, dss <> [] ->
  Forall (fun d => ds_digest_type d <> 1 /\ ds_digest_type d <> 2) dss ->
  verify_dnskeys e false sigs dss keys = Err UnsupportedAlgorithm).
Proof. exact sha384_refuted. Qed.
Print Assumptions C28_sha384_refuted.
(** A zone with a key and signature of algorithm 12 (GOST), vouched for by its DS. *)
Example C28_example :
  let k := {| dk_name := bs "a."; dk_flags := 257; dk_protocol := 3; dk_alg := 12; dk_pubkey := [1; 3; 74; 86] |} in
  let d := {| ds_name := bs "a."; ds_key_tag := 20326; ds_alg := 12; ds_digest_type := 2; ds_digest := root_digest_20326 |} in
  let s := {| rs_name := bs "a."; rs_ty := 48; rs_alg := 12; rs_labels := 1; rs_orig_ttl := 3600; rs_expiration := 2000000000;
              rs_inception := 1000000000; rs_key_tag := 20326; rs_key_name := bs "a."; rs_signature := [] |} in
  run (w_root ++ [RR_DS d; w_sig "a." 43 1 "."; RR_DnsKey k; RR_RRSig s]) = Err UnsupportedAlgorithm.
Proof. vm_compute. reflexivity. Qed.

(** C29. The one query is determined by the arguments, before any answer; [AgreeSig Q e e'] says that two
    crypto libraries agree on the queries [Q]. *)
Theorem C29_one_query : forall dbg s keys rs, exists q, forall e e', AgreeSig [q] e e' ->
  verify_rrsig e dbg s keys rs = verify_rrsig e' dbg s keys rs.
Proof. exact verify_rrsig_query. Qed.
Print Assumptions C29_one_query.
Theorem C29_run_queries : forall e dbg fuel inp, exists Q, (List.length Q <= fuel * List.length (rrsigs inp))%nat /\
  forall e', AgreeSig Q e e' -> verify_rr_stream e dbg fuel inp = verify_rr_stream e' dbg fuel inp.
Proof. exact verify_queries. Qed.
Print Assumptions C29_run_queries.
(** Two keys with the same tag: the first one decides, the second is not tried. *)
Example C29_example :
  let e := {| e_sha1 := fun _ => []; e_sha256 := fun _ => []; e_sort_needs := fun l => l;
              e_sig := fun _ pk _ _ => match pk with PK_RSA _ [3] => true | _ => false end |} in
  let bad := {| dk_name := bs "a."; dk_flags := 257; dk_protocol := 3; dk_alg := 8; dk_pubkey := [1; 2; 74; 91; 255; 255] |} in
  key_tag bad = key_tag (key_of "a.") /\
  verify_rrsig e false (w_rrsig "x.a." 1 2 "a.") [bad; key_of "a."] [w_a "x.a."] = Err Invalid /\
  verify_rrsig e false (w_rrsig "x.a." 1 2 "a.") [key_of "a."; bad] [w_a "x.a."] = Ok tt.
Proof. cbv zeta. split; [vm_compute; reflexivity|]. split; vm_compute; reflexivity. Qed.

(** C30. *)
Theorem C30_hash_queries : forall e res nd needs, exists Q, N.of_nat (List.length Q) <= 5002 /\
  forall e', AgreeSha1 Q e e' -> discharge e res nd needs = discharge e' res nd needs.
Proof. exact discharge_queries. Qed.
Print Assumptions C30_hash_queries.
(** Three parameter sets in the records: only two hashes are computed. *)
Example C30_example :
  let n i := {| n3_name := bs "0.a."; n3_algo := 1; n3_flags := 0; n3_iters := i; n3_salt := []; n3_next_hash := []; n3_types := [] |} in
  List.length (nsec3_table toy_env (bs "x.a.") [n 3000; n 5; n 6; n 7] []) = 2%nat.
Proof. vm_compute. reflexivity. Qed.

(** C31. *)
Theorem C31_rrset_order_partial : forall e dbg s keys rs rs', Permutation rs rs' ->
  verify_rrsig e dbg s keys rs = verify_rrsig e dbg s keys rs'.
Proof. exact verify_rrsig_perm. Qed.
Print Assumptions C31_rrset_order_partial.
(** Missing: the whole verdict depends on the order of the RRSIGs over a DNSKEY RRset. *)
Theorem C31_verdict_order_refuted : ~ (forall e inp inp', Forall Held inp -> Permutation inp inp' ->
  verify_rr_stream e false 10 inp = Err Invalid -> verify_rr_stream e false 10 inp' = Err Invalid).
Proof. exact order_refuted. Qed.
Print Assumptions C31_verdict_order_refuted.
Example C31_example : (exists v, run w_good_bad = Ok v /\ vr_rrs v = [w_a "x.a."]) /\ run w_bad_good = Err Invalid.
Proof. split; [eexists; split|]; vm_compute; reflexivity. Qed.

(** C32. *)
Theorem C32_canonical_order_partial : forall rs n ty ordered, Forall wf_rr rs ->
  Forall (fun r => rr_name r = n /\ rr_ty r = ty) rs -> plain_type ty ->
  (Permutation rs ordered /\ CanonicalOrder ordered <-> ordered = sort_by rr_cmp rs).
Proof. exact canonical_sort. Qed.
Print Assumptions C32_canonical_order_partial.
(** Missing: the types with names. NS aa. is put before NS b., whose RDATA is shorter. *)
Theorem C32_canonical_order_refuted : ~ (forall rs n ty, Forall wf_rr rs ->
  Forall (fun r => rr_name r = n /\ rr_ty r = ty) rs -> CanonicalOrder (sort_by rr_cmp rs)).
Proof. exact ns_order_refuted. Qed.
Print Assumptions C32_canonical_order_refuted.
(** The types whose RRsets are always put in canonical order are exactly those other than NS, CNAME, DNAME, RRSIG,
    NSEC and NSEC3. *)
Theorem C32_types_partial : forall ty,
  (forall rs n, Forall wf_rr rs -> Forall (fun r => rr_name r = n /\ rr_ty r = ty) rs -> CanonicalOrder (sort_by rr_cmp rs)) <->
  ~ In ty [2; 5; 39; 46; 47; 50].
Proof. exact sorted_exact. Qed.
Print Assumptions C32_types_partial.
Example C32_example :
  let t d := RR_Txt {| tx_name := bs "a."; tx_data := d |} in
  sort_by rr_cmp [t (repeat 97 300); t (bs "b"); t (bs "ab"); t (bs "a")] = [t (bs "a"); t (bs "b"); t (bs "ab"); t (repeat 97 300)].
Proof. vm_compute. reflexivity. Qed.
