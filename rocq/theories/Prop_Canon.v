(** Properties C89 and, in part, C32: what a zone signed over an RRset as it is on the wire is what is checked. *)
From Verif Require Import Base RRM SerM ValM NameSpec RecSpec ValSpec SignedSpec ValW2 OrderW CanonSpec CanonP CanonW.
From Coq Require Import String List.
Local Open Scope N_scope.

(** C89. The records of an RRset as the RFCs allow it are parsed, and the signature is accepted if and only if it is valid over
    the octets which RFC 4034 6.2 and 6.3 have the zone sign: given full strings in TXT records, next names of NSEC records in
    lower case, NSEC records not from wildcards, and names in the RDATA of several records in one order as texts and as octets. *)
Theorem C89_wire_partial : forall dbg e s keys ws, Held (RR_RRSig s) -> proper_name (rs_key_name s) -> Forall (fun k => is_bytes (dk_pubkey k)) keys -> LegalSet ws ->
  Forall FullStrings ws -> Forall LowerNext ws -> Forall (NsecOwner s) ws -> Orderly ws ->
  exists rs, parse_rr_stream dbg (concat (map wr_octets ws)) = Ok rs /\ (verify_rrsig e false s keys rs = Ok tt <-> RfcValid e s keys ws).
Proof. exact wire_checked. Qed.
Print Assumptions C89_wire_partial.
(** None of these conditions can be left out. The strings of a TXT record: *)
Theorem C89_txt_refuted : ~ (forall e s keys ws, Held (RR_RRSig s) -> proper_name (rs_key_name s) -> Forall (fun k => is_bytes (dk_pubkey k)) keys -> LegalSet ws ->
  Forall LowerNext ws /\ Forall (NsecOwner s) ws /\ Orderly ws ->
  exists rs, parse_rr_stream false (concat (map wr_octets ws)) = Ok rs /\ (verify_rrsig e false s keys rs = Ok tt <-> RfcValid e s keys ws)).
Proof. exact txt_refuted. Qed.
Print Assumptions C89_txt_refuted.
(** the next name of an NSEC record (RFC 6840 5.1): *)
Theorem C89_next_refuted : ~ (forall e s keys ws, Held (RR_RRSig s) -> proper_name (rs_key_name s) -> Forall (fun k => is_bytes (dk_pubkey k)) keys -> LegalSet ws ->
  Forall FullStrings ws /\ Forall (NsecOwner s) ws /\ Orderly ws ->
  exists rs, parse_rr_stream false (concat (map wr_octets ws)) = Ok rs /\ (verify_rrsig e false s keys rs = Ok tt <-> RfcValid e s keys ws)).
Proof. exact next_refuted. Qed.
Print Assumptions C89_next_refuted.
(** NSEC records from wildcards: *)
Theorem C89_nsec_owner_refuted : ~ (forall e s keys ws, Held (RR_RRSig s) -> proper_name (rs_key_name s) -> Forall (fun k => is_bytes (dk_pubkey k)) keys -> LegalSet ws ->
  Forall FullStrings ws /\ Forall LowerNext ws /\ Orderly ws ->
  exists rs, parse_rr_stream false (concat (map wr_octets ws)) = Ok rs /\ (verify_rrsig e false s keys rs = Ok tt <-> RfcValid e s keys ws)).
Proof. exact nsec_owner_refuted. Qed.
Print Assumptions C89_nsec_owner_refuted.
(** the order of records with names in their RDATA: *)
Theorem C89_order_refuted : ~ (forall e s keys ws, Held (RR_RRSig s) -> proper_name (rs_key_name s) -> Forall (fun k => is_bytes (dk_pubkey k)) keys -> LegalSet ws ->
  Forall FullStrings ws /\ Forall LowerNext ws /\ Forall (NsecOwner s) ws ->
  exists rs, parse_rr_stream false (concat (map wr_octets ws)) = Ok rs /\ (verify_rrsig e false s keys rs = Ok tt <-> RfcValid e s keys ws)).
Proof. exact ns_order_refuted. Qed.
Print Assumptions C89_order_refuted.
(** Two addresses from a wildcard, with an owner in upper case and out of order. *)
Example C89_example : Held (RR_RRSig c_as_sig) /\ LegalSet c_as /\ RfcValid echo_env c_as_sig c_keys c_as /\ c_verify c_as_sig c_as = Ok tt.
Proof. exact (conj c_as_held (conj c_as_legal (conj c_as_valid c_as_ok))). Qed.
(** Two name servers, ns1.a. and ns2.a. *)
Example C89_names_example : Held (RR_RRSig c_nss_sig) /\ LegalSet c_nss /\ Orderly c_nss /\ RfcValid echo_env c_nss_sig c_keys c_nss /\ c_verify c_nss_sig c_nss = Ok tt.
Proof. exact c_nss_example. Qed.

(** C32 for NS, CNAME and DNAME RRsets: they are put in canonical order if and only if the names are in one order as texts and as octets, *)
Theorem C32_names_partial : forall rs n ty, Forall wf_rr rs -> Forall (fun r => rr_name r = n /\ rr_ty r = ty) rs -> In ty [2; 5; 39] ->
  (CanonicalOrder (sort_by rr_cmp rs) <-> forall a b da db, In a rs -> In b rs -> RDataOf a da -> RDataOf b db -> (lex N.lt (target a) (target b) <-> lex N.lt da db)).
Proof. exact names_exact. Qed.
Print Assumptions C32_names_partial.
(** as they are if each label of one is as long as that of the other. *)
Theorem C32_shape_partial : forall a b, map (@List.length N) a = map (@List.length N) b -> SameOrder a b.
Proof. exact same_shape. Qed.
Print Assumptions C32_shape_partial.
Example C32_names_example : sort_by rr_cmp [w_ns "ns2.a."%string; w_ns "ns1.a."%string] = [w_ns "ns1.a."%string; w_ns "ns2.a."%string] /\ SameOrder [[110; 115; 49]; [97]] [[110; 115; 50]; [97]] /\
  ~ SameOrder [[97; 97]] [[98]].
Proof. exact c_names_orders. Qed.
