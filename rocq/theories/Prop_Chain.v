(** Properties C18, C20-C24: what an [Ok] of [verify_rr_stream] guarantees. [Held] holds of every record
    the Rust types can represent; [e] is any behaviour of the crypto library. *)
From Verif Require Import Base NameM WireM RRM SerM ValM NameSpec RecSpec CodecSpec ValSpec ValP3 HeldP ValW ValW2.
From Coq Require Import String.
Local Open Scope N_scope.

(** Records obtained from the parser are such records. *)
Theorem C18_parsed_records_held : forall dbg w inp, is_bytes w -> parse_rr_stream dbg w = Ok inp -> Forall Held inp.
Proof. exact parsed_held. Qed.
Print Assumptions C18_parsed_records_held.

(** C18. *)
Theorem C18_authenticated : forall e dbg fuel inp v, Forall Held inp -> verify_rr_stream e dbg fuel inp = Ok v ->
  forall r, In r (vr_rrs v) -> Authentic e inp (fun _ => True) r.
Proof. exact verified_authentic. Qed.
Print Assumptions C18_authenticated.
Example C18_example : Forall Held w_plain /\ (exists v, run w_plain = Ok v /\ vr_rrs v = [w_a "x.a."]).
Proof. split; [exact plain_held_w|]. eexists. split; vm_compute; reflexivity. Qed.

(** C20. *)
Theorem C20_input_records_partial : forall e dbg fuel inp v, Forall Held inp -> verify_rr_stream e dbg fuel inp = Ok v ->
  (forall r, In r (vr_rrs v) -> In r inp /\ ~ metadata (rr_ty r)) /\ NoDup (vr_rrs v).
Proof. exact verified_input. Qed.
Print Assumptions C20_input_records_partial.
(** Missing: non-emptiness. A stream proving only an NSEC record is accepted with no records. *)
Theorem C20_nonempty_refuted : ~ (forall e fuel inp v, Forall Held inp -> verify_rr_stream e false fuel inp = Ok v -> vr_rrs v <> []).
Proof. exact nonempty_refuted. Qed.
Print Assumptions C20_nonempty_refuted.
Example C20_example : (exists v, run w_wild = Ok v /\ vr_rrs v = [w_a "x.a."] /\ In (w_nsec "c.a." "z.a." [1]) w_wild).
Proof. eexists. split; [vm_compute; reflexivity|]. split; [reflexivity|]. cbn. auto 20. Qed.

(** C21. [used] are signatures which authenticate the result; the bounds are attained. *)
Theorem C21_window : forall e dbg fuel inp v, Forall Held inp -> verify_rr_stream e dbg fuel inp = Ok v ->
  exists used, used <> [] /\
    (forall s, In s used -> In (RR_RRSig s) inp /\
       exists z k, TrustedZone e inp (fun x => In x used) z /\ In (RR_DnsKey k) (rrset inp z 48) /\
         SigBy e k s (rrset inp (rs_name s) (rs_ty s))) /\
    (forall r, In r (vr_rrs v) -> Authentic e inp (fun x => In x used) r) /\
    is_max (vr_valid_from v) (map (fun s => resolve_time (rs_inception s)) used) /\
    is_min (vr_expires v) (map (fun s => resolve_time (rs_expiration s)) used) /\
    is_min (vr_max_cache_ttl v) (map rs_orig_ttl used) /\
    vr_valid_from v < vr_expires v.
Proof. exact verified_window. Qed.
Print Assumptions C21_window.
Example C21_example : exists v, run w_plain = Ok v /\ vr_valid_from v = 1000000000 /\ vr_expires v = 2000000000 /\ vr_max_cache_ttl v = 3600.
Proof. eexists. split; [vm_compute; reflexivity|]. repeat split. Qed.

(** C22. *)
Theorem C22_complete : forall e dbg fuel inp v, Forall Held inp -> verify_rr_stream e dbg fuel inp = Ok v ->
  forall z, Reached e inp z -> TrustedZone e inp (fun _ => True) z /\
    forall s, In (RR_RRSig s) inp -> rs_key_name s = z -> rs_ty s <> 48 ->
      ~ supported_alg (rs_alg s) \/
      (SignedByZone e inp (fun _ => True) z s /\ rs_ty s <> 46 /\
       (metadata (rs_ty s) \/ forall r, In r (rrset inp (rs_name s) (rs_ty s)) -> In r (vr_rrs v))).
Proof. exact verified_complete. Qed.
Print Assumptions C22_complete.
(** Both records of a second RRset are returned; one bad signature makes the whole stream fail. *)
Example C22_example :
  (exists v, run (w_plain ++ [w_a "y.a."; w_sig "y.a." 1 2 "a."]) = Ok v /\ List.length (vr_rrs v) = 2%nat) /\
  run (w_plain ++ [w_a "y.a."; w_sig "y.a." 1 3 "a."]) = Err Invalid.
Proof. split; [eexists; split; vm_compute; reflexivity|vm_compute; reflexivity]. Qed.

(** C23. *)
Theorem C23_name_suffix_partial : forall e dbg fuel inp v, Forall Held inp -> verify_rr_stream e dbg fuel inp = Ok v ->
  forall r, In r (vr_rrs v) -> exists z s p, TrustedZone e inp (fun _ => True) z /\
    SignedByZone e inp (fun _ => True) z s /\ In r (rrset inp (rs_name s) (rs_ty s)) /\ rr_name r = p ++ z.
Proof. exact verified_suffix. Qed.
Print Assumptions C23_name_suffix_partial.
(** Missing: the label boundary. The zone a. can vouch for ba. *)
Theorem C23_label_boundary_refuted : ~ (forall e fuel inp v r, Forall Held inp -> verify_rr_stream e false fuel inp = Ok v ->
  In r (vr_rrs v) ->
  exists z s, TrustedZone e inp (fun _ => True) z /\ SignedByZone e inp (fun _ => True) z s /\
    In r (rrset inp (rs_name s) (rs_ty s)) /\ Subdomain (rr_name r) z).
Proof. exact subdomain_refuted. Qed.
Print Assumptions C23_label_boundary_refuted.
Example C23_example :
  run (w_root ++ w_zone "a." 1 ++ [w_a "x.b."; w_sig "x.b." 1 2 "a."]) = Err Invalid /\
  (exists v, run w_sibling = Ok v /\ vr_rrs v = [w_a "ba."]).
Proof. split; [vm_compute; reflexivity|exact sibling_ok]. Qed.

(** C24. *)
Theorem C24_wildcard_denied_partial : forall e dbg fuel inp v, Forall Held inp -> SortsNeeds e ->
  verify_rr_stream e dbg fuel inp = Ok v -> forall r z s, In r (vr_rrs v) ->
  Reached e inp z -> SignedByZone e inp (fun _ => True) z s -> In r (rrset inp (rs_name s) (rs_ty s)) ->
  (exists ls, LabelsOf (rr_name r) ls /\ N.of_nat (List.length ls) = rs_labels s) \/
  (exists nc, NextCloser s r nc /\ WeaklyDenied e inp nc (rr_ty r)).
Proof. exact wildcard_denied. Qed.
Print Assumptions C24_wildcard_denied_partial.
(** Missing: the denial need not be strict (an NSEC at the name itself, listing the type, is accepted) ... *)
Theorem C24_strict_refuted : ~ (forall e fuel inp v r z s, Forall Held inp -> SortsNeeds e ->
  verify_rr_stream e false fuel inp = Ok v -> In r (vr_rrs v) ->
  Reached e inp z -> SignedByZone e inp (fun _ => True) z s -> In r (rrset inp (rs_name s) (rs_ty s)) ->
  (exists ls, LabelsOf (rr_name r) ls /\ N.of_nat (List.length ls) = rs_labels s) \/
  (exists nc, NextCloser s r nc /\ exists z', StrictlyDenied e inp z' nc)).
Proof. exact strict_denial_refuted. Qed.
Print Assumptions C24_strict_refuted.
(** ... need not be by the zone which signed the answer ... *)
Theorem C24_same_zone_refuted : ~ (forall e fuel inp v r z s, Forall Held inp -> SortsNeeds e ->
  verify_rr_stream e false fuel inp = Ok v -> In r (vr_rrs v) ->
  Reached e inp z -> SignedByZone e inp (fun _ => True) z s -> In r (rrset inp (rs_name s) (rs_ty s)) ->
  (exists ls, LabelsOf (rr_name r) ls /\ N.of_nat (List.length ls) = rs_labels s) \/
  (exists nc, NextCloser s r nc /\ WeaklyDeniedBy e inp z nc (rr_ty r))).
Proof. exact same_zone_refuted. Qed.
Print Assumptions C24_same_zone_refuted.
(** ... and is not needed at all for the DS RRsets on the chain of trust. *)
Theorem C24_wildcard_ds_refuted : ~ (forall e fuel inp v r z s, Forall Held inp -> SortsNeeds e ->
  verify_rr_stream e false fuel inp = Ok v ->
  Reached e inp z -> SignedByZone e inp (fun _ => True) z s -> rs_ty s = 43 -> In r (rrset inp (rs_name s) (rs_ty s)) ->
  (exists ls, LabelsOf (rr_name r) ls /\ N.of_nat (List.length ls) = rs_labels s) \/
  (exists nc, NextCloser s r nc /\ WeaklyDenied e inp nc (rr_ty r))).
Proof. exact wild_ds_refuted. Qed.
Print Assumptions C24_wildcard_ds_refuted.
(** A wildcard answer with its NSEC, without it, and with one for another range. *)
Example C24_example : (exists v, run w_wild = Ok v /\ vr_rrs v = [w_a "x.a."]) /\
  run (w_root ++ w_zone "a." 1 ++ [w_a "x.a."; w_sig "x.a." 1 1 "a."]) = Err Invalid /\
  run (w_root ++ w_zone "a." 1 ++ [w_a "x.a."; w_sig "x.a." 1 1 "a."; w_nsec "c.a." "d.a." [1]; w_sig "c.a." 47 2 "a."]) = Err Invalid.
Proof. split; [eexists; split; vm_compute; reflexivity|]. split; vm_compute; reflexivity. Qed.
