(** Property C81: how long a proof may be cached. The HTTP server sends the TTL computed by the builder as max-age; the verifier says
    how long the records may be cached and when they expire. [Capped] is RFC 4035 section 5.3.3, which a resolver should obey. *)
From Verif Require Import Base NameM NameSpec WireM RRM SerM ValM RecSpec ValSpec ValW OrderW QueryM QuerySpec TextSpec HttpM HttpSpec ServerM ServerSpec CacheSpec CacheP CacheW.
From Coq Require Import String.
Local Open Scope N_scope.

(** C81. The TTL of a proof is not more than the verifier allows, and a proof kept that long is not expired, if the TTLs of the RRSIGs
    in the responses are as RFC 4035 asks ... *)
Theorem C81_built_partial : forall dbg fuel n ty segs proof ttl sent, name_try_from n = Some n -> ty < 65536 -> is_bytes (List.concat segs) ->
  build_proof dbg fuel n ty segs = (Ok (proof, ttl), sent) ->
  exists ms itemss rest, List.concat segs = flat_map frame ms ++ rest /\ Forall2 (Response (negb dbg)) ms itemss /\
    forall now, Forall wf_rr (map fst (List.concat itemss)) -> Forall (Capped now) (List.concat itemss) ->
    forall e dbg' fuel' inp v, parse_rr_stream dbg' proof = Ok inp -> verify_rr_stream e dbg' fuel' inp = Ok v ->
      ttl <= vr_max_cache_ttl v /\ (now + ttl < 2 ^ 32 -> now + ttl <= vr_expires v).
Proof. exact build_capped. Qed.
Print Assumptions C81_built_partial.
(** ... and so for what the server tells caches: whatever a connection has been sent is nothing, an error, or a proof with such a max-age. *)
Theorem C81_served_partial : forall dbg acts i t, (forall d, In (RBytes d) (resolver_of i 0 acts) -> is_bytes d) ->
  nth_error (sv_tasks (run_server dbg acts)) i = Some t ->
  tk_out t = [] \/ In (tk_out t) error_messages \/
  exists proof ttl num age rs ms itemss rest, tk_out t = http_message (proof_lines num age) proof /\ Decimal (length_of proof) num /\ Decimal ttl age /\
    resolver_of i 0 acts = RConnected :: rs /\ List.concat (segments rs) = flat_map frame ms ++ rest /\ Forall2 (Response (negb dbg)) ms itemss /\
    forall now, Forall wf_rr (map fst (List.concat itemss)) -> Forall (Capped now) (List.concat itemss) ->
    forall e dbg' fuel' inp v, parse_rr_stream dbg' proof = Ok inp -> verify_rr_stream e dbg' fuel' inp = Ok v ->
      ttl <= vr_max_cache_ttl v /\ (now + ttl < 2 ^ 32 -> now + ttl <= vr_expires v).
Proof. exact served_capped. Qed.
Print Assumptions C81_served_partial.
(** Without that: the builder does not look at the Original TTL, ... *)
Theorem C81_lifetime_refuted : ~ (forall dbg fuel n ty segs proof ttl sent e fuel' inp v, name_try_from n = Some n -> ty < 65536 -> is_bytes (List.concat segs) ->
  build_proof dbg fuel n ty segs = (Ok (proof, ttl), sent) -> parse_rr_stream dbg proof = Ok inp -> verify_rr_stream e dbg fuel' inp = Ok v ->
  ttl <= vr_max_cache_ttl v).
Proof. exact lifetime_refuted. Qed.
Print Assumptions C81_lifetime_refuted.
(** ... nor at the expiration. *)
Theorem C81_expiry_refuted : ~ (forall dbg fuel n ty segs proof ttl sent e fuel' inp v now, name_try_from n = Some n -> ty < 65536 -> is_bytes (List.concat segs) ->
  build_proof dbg fuel n ty segs = (Ok (proof, ttl), sent) -> parse_rr_stream dbg proof = Ok inp -> verify_rr_stream e dbg fuel' inp = Ok v ->
  ttl <= vr_max_cache_ttl v -> vr_valid_from v <= now <= vr_expires v -> now + ttl <= vr_expires v).
Proof. exact expiry_refuted. Qed.
Print Assumptions C81_expiry_refuted.
(** A minute before the signatures expire, with a TTL of a minute. *)
Example C81_example : fst (build_proof false 10 (bs "x.a.") 1 (c_segs 60)) = Ok (c_built 60) /\ snd (c_built 60) = 60 /\ c_inp = map fst (c_items 60) /\
  Forall wf_rr (map fst (c_items 60)) /\ Forall (Capped 1999999940) (c_items 60) /\
  exists v, verify_rr_stream echo_env false 10 c_inp = Ok v /\ vr_max_cache_ttl v = 3600 /\ vr_expires v = 1999999940 + 60.
Proof. exact cache_example. Qed.
