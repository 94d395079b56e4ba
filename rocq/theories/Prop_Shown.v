(** Property C105: what the page shows of a proof which a client of the server accepts. *)
From Verif Require Import Base NameM NameSpec WireM RRM SerM RecSpec RecP2 ValSpec ValM OrderSpec QueryM QuerySpec AcceptSpec ValW OrderW JsonM JsonSpec SeenSpec SeenW WasmSpec DohM DohSpec ArriveSpec ArriveW BothW ShownP ShownW.
From Coq Require Import String List Permutation.
Import ListNotations.
Local Open Scope N_scope.

(** C105. Full statement: let a resolver's answers, in some order, give a proof (C103: the one the server sends) and let a client
    accept it; then the page which gets the same answers over HTTPS shows a JSON text describing the same records, window and cache TTL.
    Proved for answers of less than 65535 octets (C104), with each zone's DNSKEYs and RRSIGs over them in one answer, under the
    conditions of C99, and for records without backslashes in their texts (C51). The release build is meant, which does not
    check [debug_assert]s. [reparse] is JSON.stringify after JSON.parse, as far as it succeeds; the limit on the verifier's rounds
    is the same for all [k], and any larger one gives the same. *)
Theorem C105_shown_partial : forall e reparse trap fetch endpoint answer domain typ ty n b0 q0, (forall q, is_bytes (answer q) /\ length_of (answer q) < 65535) ->
  (forall i q u, GetUrl endpoint q u -> fetch i u = Body (answer q)) -> (forall i u m, fetch i u = Body m -> is_bytes m) ->
  TypeName typ ty -> name_try_from (completed domain) = Some n -> builder_new n ty = Ok (b0, q0) ->
  forall order b p ttl rs fuel v, Arrive false answer b0 [qb_deref q0] order b [] -> finish_proof b = Ok (p, ttl) ->
  KeysTogether false answer order -> (forall items, Brings false answer order items -> Forall wf_rr (map fst items) /\
    (forall s, In (RR_RRSig s) (map fst items) -> ~ EmptyMaxLabels (map fst items) s) /\ TwoParams e (map fst items) /\ OneZone e (map fst items)) -> SortsNeeds e ->
  parse_rr_stream false p = Ok rs -> verify_rr_stream e false fuel rs = Ok v -> Forall no_backslash (vr_rrs v) ->
  exists fuel0, forall k fuel', (11 <= k)%nat -> (fuel0 <= fuel')%nat -> exists v' text j urls, SameResult v v' /\ Json text j /\ DescribesResult v' j /\
    lookup_doh e false fuel' reparse trap fetch endpoint k domain (TyText typ) = (match reparse text with Some s => JText s | None => JRejected end, urls).
Proof. exact shown. Qed.
Print Assumptions C105_shown_partial.
(** With the RRSIGs over a zone's DNSKEYs in two answers, a client of the server may accept where the page shows the error Invalid. *)
Theorem C105_shown_refuted : ~ (forall e reparse trap (fetch : nat -> list N -> fetched) endpoint answer domain typ ty n b0 q0, (forall q, is_bytes (answer q) /\ length_of (answer q) < 65535) ->
  (forall i q u, GetUrl endpoint q u -> fetch i u = Body (answer q)) -> (forall i u m, fetch i u = Body m -> is_bytes m) ->
  TypeName typ ty -> name_try_from (completed domain) = Some n -> builder_new n ty = Ok (b0, q0) ->
  forall order b p ttl rs fuel v, Arrive false answer b0 [qb_deref q0] order b [] -> finish_proof b = Ok (p, ttl) ->
  (forall items, Brings false answer order items -> Forall wf_rr (map fst items) /\
    (forall s, In (RR_RRSig s) (map fst items) -> ~ EmptyMaxLabels (map fst items) s) /\ TwoParams e (map fst items) /\ OneZone e (map fst items)) -> SortsNeeds e ->
  parse_rr_stream false p = Ok rs -> verify_rr_stream e false fuel rs = Ok v -> Forall no_backslash (vr_rrs v) ->
  exists fuel0, forall k fuel', (11 <= k)%nat -> (fuel0 <= fuel')%nat -> exists v' text j urls, SameResult v v' /\ Json text j /\ DescribesResult v' j /\
    lookup_doh e false fuel' reparse trap fetch endpoint k domain (TyText typ) = (match reparse text with Some s => JText s | None => JRejected end, urls)).
Proof. exact shown_refuted. Qed.
Print Assumptions C105_shown_refuted.
(** Conversely, if what a caller of the page's [lookup_doh] reads in the text it gets is a result, a client of the server accepts. The caller
    sees the window, the cache TTL and the records verified, with the escapes in names undone (C72, and C72_plain: without backslashes nothing is changed).
    This is under the same conditions, but for the one on backslashes. *)
Theorem C105_client_partial : forall e reparse trap fetch endpoint answer domain typ ty n b0 q0, (forall q, is_bytes (answer q) /\ length_of (answer q) < 65535) ->
  (forall i q u, GetUrl endpoint q u -> fetch i u = Body (answer q)) -> (forall i u m, fetch i u = Body m -> is_bytes m) ->
  TypeName typ ty -> name_try_from (completed domain) = Some n -> builder_new n ty = Ok (b0, q0) -> Reformats reparse ->
  forall k fuel s urls j V, (11 <= k)%nat -> lookup_doh e false fuel reparse trap fetch endpoint k domain (TyText typ) = (JText s, urls) ->
  Json s j -> DescribesResult V j -> Forall Held (vr_rrs V) ->
  forall order b p ttl, Arrive false answer b0 [qb_deref q0] order b [] -> finish_proof b = Ok (p, ttl) ->
  KeysTogether false answer order -> (forall items, Brings false answer order items -> Forall wf_rr (map fst items) /\
    (forall s, In (RR_RRSig s) (map fst items) -> ~ EmptyMaxLabels (map fst items) s) /\ TwoParams e (map fst items) /\ OneZone e (map fst items)) -> SortsNeeds e ->
  exists rs fuel' v' v, parse_rr_stream false p = Ok rs /\ verify_rr_stream e false fuel' rs = Ok v' /\ SameResult v v' /\
    vr_valid_from V = vr_valid_from v /\ vr_expires V = vr_expires v /\ vr_max_cache_ttl V = vr_max_cache_ttl v /\ Forall2 Spelled (vr_rrs v) (vr_rrs V).
Proof. exact client. Qed.
Print Assumptions C105_client_partial.
(** With the RRSIGs over a zone's DNSKEYs in two answers, the page may show a result where a client of the server finds the proof invalid. *)
Theorem C105_client_refuted : ~ (forall e reparse trap (fetch : nat -> list N -> fetched) endpoint answer domain typ ty n b0 q0, (forall q, is_bytes (answer q) /\ length_of (answer q) < 65535) ->
  (forall i q u, GetUrl endpoint q u -> fetch i u = Body (answer q)) -> (forall i u m, fetch i u = Body m -> is_bytes m) ->
  TypeName typ ty -> name_try_from (completed domain) = Some n -> builder_new n ty = Ok (b0, q0) -> Reformats reparse ->
  forall k fuel s urls j V, (11 <= k)%nat -> lookup_doh e false fuel reparse trap fetch endpoint k domain (TyText typ) = (JText s, urls) ->
  Json s j -> DescribesResult V j -> Forall Held (vr_rrs V) ->
  forall order b p ttl, Arrive false answer b0 [qb_deref q0] order b [] -> finish_proof b = Ok (p, ttl) ->
  (forall items, Brings false answer order items -> Forall wf_rr (map fst items) /\
    (forall s, In (RR_RRSig s) (map fst items) -> ~ EmptyMaxLabels (map fst items) s) /\ TwoParams e (map fst items) /\ OneZone e (map fst items)) -> SortsNeeds e ->
  exists rs fuel' v', parse_rr_stream false p = Ok rs /\ verify_rr_stream e false fuel' rs = Ok v').
Proof. exact client_refuted. Qed.
Print Assumptions C105_client_refuted.
(** The client's answers come in the order [y_other], the page asks in the order [y_order]: the address of x.a. is verified and shown. *)
Example C105_example : (exists b0 q0 b rs v, builder_new (bs "x.a.") 1 = Ok (b0, q0) /\ Arrive false y_answer b0 [qb_deref q0] y_other b [] /\ finish_proof b = Ok (y_proof y_other, 60) /\
    parse_rr_stream false (y_proof y_other) = Ok rs /\ verify_rr_stream echo_env false 10 rs = Ok v /\ vr_rrs v = [w_a "x.a."] /\ Forall no_backslash (vr_rrs v)) /\
  KeysTogether false y_answer y_other /\ (forall items, Brings false y_answer y_other items -> Forall wf_rr (map fst items) /\
    (forall s, In (RR_RRSig s) (map fst items) -> ~ EmptyMaxLabels (map fst items) s) /\ TwoParams echo_env (map fst items) /\ OneZone echo_env (map fst items)) /\
  lookup_doh echo_env false 10 Some [] bo_fetch bo_end 11 (bs "X.a") (TyText (bs "A")) =
    (JText (bs "{""valid_from"": 1000000000, ""expires"": 2000000000, ""max_cache_ttl"": 3600, ""verified_rrs"": [{""type"":""a"",""name"":""x.a."",""address"":[127, 0, 0, 1]}]}"),
     map (doh_url bo_end) y_order) /\
  Reformats Some /\ (exists j, Json bo_text j /\ DescribesResult bo_result j) /\ Forall Held (vr_rrs bo_result).
Proof.
  split; [exact shown_example |]. split; [exact y_other_together |]. split; [exact yo_hyps |]. split; [exact bo_found |]. split; [exact some_reformats |]. split; [exact bo_describes | exact bo_held].
Qed.
Print Assumptions C105_example.
