(** Property C65: looking a name up by DNS over HTTPS (wasmpack/doh_lookup.js). [fetch i u] is what the i-th fetch, of the URL
    [u], brings; [reparse] is the engine's [JSON.stringify(JSON.parse(..), null, 1)], [trap] the text of the exception for a WASM panic. *)
From Verif Require Import Base NameM WireM RRM SerM ValM NameSpec RecSpec ValSpec CodecSpec QueryM QuerySpec AcceptSpec OrderW JsonM JsonSpec WasmM WasmSpec DohM DohSpec DohP DohP3 LiveSpec LiveW LiveW2 DohW.
From Coq Require Import String Permutation.
Local Open Scope N_scope.

(** Only names and the four types known by name are looked up, in any case, with or without the final dot; a type given as a
    number rejects the promise. *)
Theorem C65_type : forall e dbg fuel reparse trap fetch endpoint k domain ty, (forall t, ~ TypeName ty t) ->
  lookup_doh e dbg fuel reparse trap fetch endpoint k domain (TyText ty) = (JText unsupported, []).
Proof. exact lookup_type. Qed.
Print Assumptions C65_type.
Theorem C65_domain : forall e dbg fuel reparse trap fetch endpoint k domain ty t, TypeName ty t -> name_try_from (completed domain) = None ->
  lookup_doh e dbg fuel reparse trap fetch endpoint k domain (TyText ty) = (JText bad_domain, []).
Proof. exact lookup_domain. Qed.
Print Assumptions C65_domain.

(** Otherwise: the URLs fetched are RFC 8484 requests for the queries the library hands out, in its order, at most ten; the
    bodies are given to the library (those of 65535 octets or more are ignored); when all queries are answered the proof is
    finished and verified; the first failure, of a fetch or of the WASM code, ends the lookup. [JNever] comes of verification only. *)
Theorem C65_run : forall e dbg fuel reparse trap fetch endpoint k domain ty t n r urls, (11 <= k)%nat -> TypeName ty t -> name_try_from (completed domain) = Some n ->
  (forall i u b, fetch i u = Body b -> is_bytes b) ->
  lookup_doh e dbg fuel reparse trap fetch endpoint k domain (TyText ty) = (r, urls) ->
  exists b0 q0 tr b bodies qs, builder_new n t = Ok (b0, q0) /\ Calls dbg b0 tr b /\ map fst tr = short 65535 bodies /\
    Forall2 (fun q u => GetUrl endpoint (qb_deref q) u) qs urls /\ (List.length urls <= 10)%nat /\
    ((qs = q0 :: handed tr /\ Fetched fetch urls bodies /\
      ((exists p ttl, finish_proof b = Ok (p, ttl) /\ Checked e dbg fuel reparse p r) \/
       ((forall p, finish_proof b <> Ok p) /\ r = JText build_failed))) \/
     (exists us u later, urls = us ++ [u] /\ q0 :: handed tr = qs ++ later /\ Fetched fetch us bodies /\
       ((exists exn, fetch (List.length us) u = Failed exn /\ r = JText (query_failed exn)) \/
        (exists m, fetch (List.length us) u = Body m /\ BadResponse dbg m /\ r = JText (query_failed trap))))).
Proof. exact doh_run. Qed.
Print Assumptions C65_run.
(** The bound on verification is immaterial. *)
Theorem C65_fuel_irrelevant : forall e dbg reparse trap fetch endpoint k domain ty f f',
  fst (lookup_doh e dbg f reparse trap fetch endpoint k domain ty) <> JNever -> (f <= f')%nat ->
  lookup_doh e dbg f' reparse trap fetch endpoint k domain ty = lookup_doh e dbg f reparse trap fetch endpoint k domain ty.
Proof. exact doh_mono. Qed.
Print Assumptions C65_fuel_irrelevant.
(** Base64url is unambiguous in both directions. *)
Theorem C65_url_decodes : forall t d d', Base64Url t d -> Base64Url t d' -> d = d'.
Proof. exact url_decodes. Qed.
Print Assumptions C65_url_decodes.
Theorem C65_url_unique : forall t t' d, Base64Url t d -> Base64Url t' d -> t = t'.
Proof. exact url_unique. Qed.
Print Assumptions C65_url_unique.

(** With a resolver which answers and well-signed zones (C64), the lookup gives the JSON of exactly the answers, ... *)
Theorem C65_works_partial : forall e dbg zones answers domain ty t n data resp fetch endpoint reparse trap, TypeName ty t -> name_try_from (completed domain) = Some n -> SortsNeeds e ->
  WellSigned e zones answers (FirstVouched e) -> Serves zones answers n t data -> Answers data dbg n t resp ->
  (forall m t' rt, Asked data n t m t' -> In rt (data m t') -> wf_rr (fst rt)) -> (List.length zones <= 5)%nat ->
  (forall m t', Asked data n t m t' -> length_of (resp m t') < 65535) ->
  (forall i m t' b u, Asked data n t m t' -> Query m t' b -> GetUrl endpoint b u -> fetch i u = Body (resp m t')) ->
  Forall (fun a => Forall no_backslash (an_recs a)) answers ->
  exists qs urls v text j fuel0, Permutation qs (questions n t (map zn_name zones)) /\
    Forall2 (fun q u => exists b, Query (fst q) (snd q) b /\ GetUrl endpoint b u) qs urls /\
    (forall r, In r (vr_rrs v) <-> exists a, In a answers /\ In r (an_recs a) /\ an_ty a <> 47 /\ an_ty a <> 50) /\
    Json text j /\ DescribesResult v j /\
    forall k fuel, (11 <= k)%nat -> (fuel0 <= fuel)%nat ->
      lookup_doh e dbg fuel reparse trap fetch endpoint k domain (TyText ty) = (match reparse text with Some s => JText s | None => JRejected end, urls).
Proof. exact doh_works. Qed.
Print Assumptions C65_works_partial.
(** ... if no name among them has a backslash; the promise may be rejected otherwise. (For the other restrictions see C58 and C64.) *)
Theorem C65_works_refuted : ~ (forall e zones answers domain ty t n data resp fetch endpoint reparse trap, TypeName ty t -> name_try_from (completed domain) = Some n -> SortsNeeds e ->
  WellSigned e zones answers (FirstVouched e) -> Serves zones answers n t data -> Answers data false n t resp ->
  (forall m t' rt, Asked data n t m t' -> In rt (data m t') -> wf_rr (fst rt)) -> (List.length zones <= 5)%nat ->
  (forall m t', Asked data n t m t' -> length_of (resp m t') < 65535) ->
  (forall i m t' b u, Asked data n t m t' -> Query m t' b -> GetUrl endpoint b u -> fetch i u = Body (resp m t')) ->
  (forall s v, Json s v -> reparse s <> None) ->
  exists fuel0, forall fuel, (fuel0 <= fuel)%nat -> exists s urls, lookup_doh e false fuel reparse trap fetch endpoint 11 domain (TyText ty) = (JText s, urls)).
Proof. exact doh_works_refuted. Qed.
Print Assumptions C65_works_refuted.

(** What the promise resolves to is JSON, if the texts of the exceptions need no escaping, ... *)
Theorem C65_json_partial : forall e dbg fuel reparse trap fetch endpoint, (forall s s', reparse s = Some s' -> exists v, Json s' v) -> Clean trap ->
  (forall i u exn, fetch i u = Failed exn -> Clean exn) ->
  forall k domain ty s urls, lookup_doh e dbg fuel reparse trap fetch endpoint k domain ty = (JText s, urls) -> exists v, Json s v.
Proof. exact doh_json. Qed.
Print Assumptions C65_json_partial.
(** ... but not in general. *)
Theorem C65_json_refuted : ~ (forall e dbg fuel reparse trap fetch endpoint k domain ty s urls, (forall s s', reparse s = Some s' -> exists v, Json s' v) -> Clean trap ->
  lookup_doh e dbg fuel reparse trap fetch endpoint k domain ty = (JText s, urls) -> exists v, Json s v).
Proof. exact doh_json_refuted. Qed.
Print Assumptions C65_json_refuted.

(** The wildcard answer of C64, and what the same resolver makes of other arguments. *)
Example C65_example :
  let run := lookup_doh echo_env false 10 Some [] (l_fetch l_small l_wild (bs "x.a.") 1 (bs "https://r/")) (bs "https://r/") 11 in
  run (bs "x.a") (TyText (bs "A")) = (JText (bs "{""valid_from"": 1000000000, ""expires"": 2000000000, ""max_cache_ttl"": 3600, ""verified_rrs"": [{""type"":""a"",""name"":""x.a."",""address"":[127, 0, 0, 1]}]}"),
    [bs "https://r/?dns=AAABIAABAAAAAAABAXgBYQAAAQABAAApAAAAAIAAAAA"; bs "https://r/?dns=AAABIAABAAAAAAABAWEAADAAAQAAKQAAAACAAAAA";
     bs "https://r/?dns=AAABIAABAAAAAAABAWEAACsAAQAAKQAAAACAAAAA"; bs "https://r/?dns=AAABIAABAAAAAAABAAAwAAEAACkAAAAAgAAAAA"]) /\
  run (bs "x.a.") (TyText (bs "MX")) = (JText unsupported, []) /\ run (bs "x y") (TyText (bs "txt")) = (JText bad_domain, []) /\ run (bs "x.a") (TyNumber 1) = (JRejected, []) /\
  fst (run (bs "x.a.") (TyText (bs "aAaA"))) = JText (query_failed []).
Proof. repeat split; vm_compute; reflexivity. Qed.
