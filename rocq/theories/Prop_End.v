(** Property C93: from what the zones have signed on the wire (PubSpec.v, EndSpec.v) to what is asked for:
    the records which [resolve_name] returns, those which a caller in JavaScript is shown, and those which
    come from wildcards. *)
From Verif Require Import Base NameM WireM RRM SerM ValM NameSpec RecSpec CodecSpec ValSpec ResolveSpec JsonSpec DohM DohSpec SecSpec WildSpec AnswerSpec SeenSpec PubSpec EndSpec EndP ValW SecW DohW SeenW PubW EndW.
From Coq Require Import String.
Import List.ListNotations.
Local Open Scope N_scope.

(** As C70: aliases signed by the zones lead to the returned records, and these mean RDATA which a zone has
    signed, the RRset complete. DNAME records are taken on texts. *)
Theorem C93_answers_partial : forall e KeyOf Honest Signs dbg fuel proof inp v k n l r, WireWorld e KeyOf Honest Signs -> is_bytes proof ->
  parse_rr_stream dbg proof = Ok inp -> verify_rr_stream e dbg fuel inp = Ok v -> name_try_from n = Some n ->
  (forall m, WireLeads Signs redirect_text n m -> InGoodHands Honest m) -> resolve_name (vr_rrs v) k n = Ok l -> In r l ->
  WireLeads Signs redirect_text n (rr_name r) /\ (exists z p, rr_name r = p ++ z /\ proper_name z /\ WirePublished Signs z v r) /\
  (forall r', In r' (vr_rrs v) -> rr_name r' = rr_name r -> In r' l).
Proof. exact wire_answers. Qed.
Print Assumptions C93_answers_partial.
(** DNAME records as in RFC 6672. That the targets of aliases are names need not be assumed here. *)
Theorem C93_dns_partial : forall e KeyOf Honest Signs dbg fuel proof inp v k n l r, WireWorld e KeyOf Honest Signs -> is_bytes proof ->
  parse_rr_stream dbg proof = Ok inp -> verify_rr_stream e dbg fuel inp = Ok v -> proper_name n ->
  (forall m, WireLeads Signs redirect_labels n m -> InGoodHands Honest m) ->
  (forall o d, WireIssued Signs (RR_DName {| dn_name := o; dn_delegation := d |}) -> d <> [46]) ->
  (forall m o d p, WireLeads Signs redirect_labels n m -> WireIssued Signs (RR_DName {| dn_name := o; dn_delegation := d |}) -> m = p ++ o -> exists q, p = q ++ [46]) ->
  resolve_name (vr_rrs v) k n = Ok l -> In r l ->
  WireLeads Signs redirect_labels n (rr_name r) /\ (exists z p, rr_name r = p ++ z /\ proper_name z /\ WirePublished Signs z v r).
Proof. exact wire_dns. Qed.
Print Assumptions C93_dns_partial.
(** The alias of w.a. leads to k.a., whose address is that of *.a. *)
Example C93_example : WireWorld (z_env false) x_keys (x_honest false) z_signed /\ (forall d, x_honest false d) /\ WireTruthful z_signed (z_env false) /\
  parse_rr_stream false (y_wire z_inp) = Ok z_inp /\ verify_rr_stream (z_env false) false 10 z_inp = Ok z_result /\
  resolve_name (vr_rrs z_result) 5 (bs "w.a.") = Ok [z_addr] /\ WireLeads z_signed redirect_labels (bs "w.a.") (rr_name z_addr) /\
  (exists z, WirePublished z_signed z z_result z_addr) /\ (forall o d, ~ WireIssued z_signed (RR_DName {| dn_name := o; dn_delegation := d |})).
Proof. exact z_example. Qed.

(** As C72: what the text of the promise of [lookup_doh] says. *)
Theorem C93_seen_partial : forall e KeyOf Honest Signs dbg fuel reparse trap fetch endpoint k domain ty s urls j V,
  WireWorld e KeyOf Honest Signs -> Reformats reparse -> (forall i u b, fetch i u = Body b -> is_bytes b) -> (11 <= k)%nat ->
  lookup_doh e dbg fuel reparse trap fetch endpoint k domain (TyText ty) = (JText s, urls) -> Json s j -> DescribesResult V j -> Forall Held (vr_rrs V) ->
  exists v, vr_valid_from V = vr_valid_from v /\ vr_expires V = vr_expires v /\ vr_max_cache_ttl V = vr_max_cache_ttl v /\
    Forall2 (fun r0 r => Spelled r0 r /\ ((forall raw, Str raw (rr_name r) -> InGoodHands Honest raw) -> exists z p, rr_name r0 = p ++ z /\ proper_name z /\ WirePublished Signs z v r0)) (vr_rrs v) (vr_rrs V).
Proof. exact wire_seen. Qed.
Print Assumptions C93_seen_partial.
Example C93_seen_example : exists s urls j v r0 z, Reformats Some /\ (forall i u b, z_fetch i u = Body b -> is_bytes b) /\
  lookup_doh (z_env false) false 10 Some [] z_fetch (bs "https://r/") 11 (bs "a") (TyText (bs "TXT")) = (JText s, urls) /\ Json s j /\ DescribesResult (k_result "a.") j /\
  Forall Held (vr_rrs (k_result "a.")) /\ vr_rrs v = [r0] /\ Spelled r0 (k_txt "a.") /\ WirePublished z_signed z v r0.
Proof. exact z_seen. Qed.

(** As C69: every returned record means RDATA signed at its name, or at a wildcard, along with a signed
    NSEC or NSEC3 record; then the zone which signed that has nothing at the next closer name, of any
    type but NSEC3, or the record is the one of that very name. The NSEC records which the zones have
    signed list ordinary types (C96), or else those given have no empty labels in their next names. *)
Theorem C93_origin_partial : forall e KeyOf Honest Signs dbg fuel proof inp v r, WireWorld e KeyOf Honest Signs -> (forall d, Honest d) -> WireTruthful Signs e -> SortsNeeds e ->
  is_bytes proof -> parse_rr_stream dbg proof = Ok inp -> ProperNext inp \/ WireOrdinary Signs -> verify_rr_stream e dbg fuel inp = Ok v -> In r (vr_rrs v) ->
  WireIssuedAt Signs r \/ exists nc z' d, WireSynthesised Signs e inp r nc z' d /\
    ((forall p, Signs z' p -> pb_type p <> 50 -> ~ CanonName (owner_octets p) nc) \/ OwnRecord e d nc).
Proof. exact wire_origin. Qed.
Print Assumptions C93_origin_partial.
(** Where a zone has signed anything at this name, what is returned was signed there, under the
    conditions of C69_exact_partial (each of which is needed, C69). *)
Theorem C93_exact_partial : forall e KeyOf Honest Signs dbg fuel proof inp v r z p, WireWorld e KeyOf Honest Signs -> (forall d, Honest d) -> WireTruthful Signs e -> SortsNeeds e ->
  is_bytes proof -> parse_rr_stream dbg proof = Ok inp -> ProperNext inp \/ WireOrdinary Signs -> verify_rr_stream e dbg fuel inp = Ok v -> In r (vr_rrs v) ->
  Signs z p -> CanonName (owner_octets p) (rr_name r) -> pb_type p <> 50 -> OneLabel inp (rr_name r) (rr_ty r) ->
  (forall d, In d inp -> ~ OwnRecord e d (rr_name r)) ->
  (forall d z', In d inp -> WireDenial Signs z' d -> Between e d (rr_name r) -> z' = z) ->
  WireIssuedAt Signs r.
Proof. exact wire_exact. Qed.
Print Assumptions C93_exact_partial.
Example C93_origin_example : WireOrdinary z_signed /\ SortsNeeds (z_env false) /\ ~ WireIssuedAt z_signed z_addr /\ exists nc z' d, WireSynthesised z_signed (z_env false) z_inp z_addr nc z' d /\
  nc = bs "k.a." /\ z' = bs "a." /\ d = z_nsec /\ (forall p, z_signed z' p -> pb_type p <> 50 -> ~ CanonName (owner_octets p) nc).
Proof. exact z_wild. Qed.

(** Missing: what C62, C69, C70 and C72 lack. So even without DNAME records it is not enough that the zones
    above the names on the way are honest: a zone a. answers for ba. *)
Theorem C93_boundary_refuted : ~ (forall e KeyOf Honest Signs dbg fuel proof inp v k n l r, WireWorld e KeyOf Honest Signs -> is_bytes proof ->
  parse_rr_stream dbg proof = Ok inp -> verify_rr_stream e dbg fuel inp = Ok v -> proper_name n ->
  (forall m d, WireLeads Signs redirect_labels n m -> Subdomain m d -> Honest d) ->
  (forall o d, ~ WireIssued Signs (RR_DName {| dn_name := o; dn_delegation := d |})) ->
  resolve_name (vr_rrs v) k n = Ok l -> In r l -> exists z, WirePublished Signs z v r).
Proof. exact end_boundary_refuted. Qed.
Print Assumptions C93_boundary_refuted.
Example C93_boundary_example : WireWorld (y_env true) x_keys (x_honest true) y_signed /\ (forall d, Subdomain (bs "ba.") d -> x_honest true d) /\
  parse_rr_stream false (y_wire x_sibling) = Ok x_sibling /\ exists v, verify_rr_stream (y_env true) false 10 x_sibling = Ok v /\ vr_rrs v = [w_a "ba."].
Proof. split; [apply y_world |]. split; [exact x_sub | exact y_sibling_ok]. Qed.
