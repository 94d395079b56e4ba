(** Property C104: the page and the server. The page asks the resolver over HTTPS (C65), the server over TCP (C66, C103). *)
From Verif Require Import Base NameM NameSpec RRM SerM RecSpec RecP2 ValM QueryM QuerySpec OrderW WasmSpec DohM DohSpec ArriveSpec ArriveW BothP BothW.
From Coq Require Import String List Permutation.
Import ListNotations.
Local Open Scope N_scope.

(** C104. If the answers of a resolver, in some order, give a proof (which is then the one the server sends: C103), the page
    which gets the same answers over HTTPS asks the same queries and builds a proof with the same records; what it shows
    is the outcome of verifying that. Full statement: for answers which a DNS message can be; proved for answers of less than 65535 octets. *)
Theorem C104_page_partial : forall e dbg reparse trap fetch endpoint answer domain typ ty n b0 q0, (forall q, is_bytes (answer q) /\ length_of (answer q) < 65535) ->
  (forall i q u, GetUrl endpoint q u -> fetch i u = Body (answer q)) -> (forall i u m, fetch i u = Body m -> is_bytes m) ->
  TypeName typ ty -> name_try_from (completed domain) = Some n -> builder_new n ty = Ok (b0, q0) ->
  forall order b p ttl k fuel, (11 <= k)%nat -> Arrive dbg answer b0 [qb_deref q0] order b [] -> finish_proof b = Ok (p, ttl) ->
  exists r urls order' p' items items', lookup_doh e dbg fuel reparse trap fetch endpoint k domain (TyText typ) = (r, urls) /\
    Permutation order order' /\ Forall2 (GetUrl endpoint) order' urls /\ Brings dbg answer order items /\ Brings dbg answer order' items' /\
    Permutation items items' /\ p = write_all items /\ p' = write_all items' /\ Checked e dbg fuel reparse p' r.
Proof. exact https_forth. Qed.
Print Assumptions C104_page_partial.
(** An answer of 65535 octets is one the page ignores. *)
Theorem C104_page_refuted : ~ (forall e dbg reparse trap (fetch : nat -> list N -> fetched) endpoint answer domain typ ty n b0 q0, (forall q, is_bytes (answer q) /\ length_of (answer q) <= 65535) ->
  (forall i q u, GetUrl endpoint q u -> fetch i u = Body (answer q)) -> (forall i u m, fetch i u = Body m -> is_bytes m) ->
  TypeName typ ty -> name_try_from (completed domain) = Some n -> builder_new n ty = Ok (b0, q0) ->
  forall order b p ttl k fuel, (11 <= k)%nat -> Arrive dbg answer b0 [qb_deref q0] order b [] -> finish_proof b = Ok (p, ttl) ->
  exists r urls p', lookup_doh e dbg fuel reparse trap fetch endpoint k domain (TyText typ) = (r, urls) /\ Checked e dbg fuel reparse p' r).
Proof. exact limit_refuted. Qed.
Print Assumptions C104_page_refuted.
(** Conversely, if the page does not report that it failed to ask or to build, the answers give a proof, in the order in which
    the page asked: the one it has verified. The server then has a proof to send as well. *)
Theorem C104_server : forall e dbg reparse trap fetch endpoint answer domain typ ty n b0 q0, (forall q, is_bytes (answer q) /\ length_of (answer q) < 65535) ->
  (forall i q u, GetUrl endpoint q u -> fetch i u = Body (answer q)) -> (forall i u m, fetch i u = Body m -> is_bytes m) ->
  TypeName typ ty -> name_try_from (completed domain) = Some n -> builder_new n ty = Ok (b0, q0) ->
  forall k fuel r urls, (11 <= k)%nat -> lookup_doh e dbg fuel reparse trap fetch endpoint k domain (TyText typ) = (r, urls) ->
  r <> JText build_failed -> (forall exn, r <> JText (query_failed exn)) ->
  exists order b p ttl, Arrive dbg answer b0 [qb_deref q0] order b [] /\ finish_proof b = Ok (p, ttl) /\ Forall2 (GetUrl endpoint) order urls /\ Checked e dbg fuel reparse p r.
Proof. exact https_back. Qed.
Print Assumptions C104_server.
(** The resolver of C103, asked over HTTPS. *)
Example C104_example : (forall q, is_bytes (y_answer q) /\ length_of (y_answer q) < 65535) /\ (forall i q u, GetUrl bo_end q u -> bo_fetch i u = Body (y_answer q)) /\
  (forall i u m, bo_fetch i u = Body m -> is_bytes m) /\
  lookup_doh echo_env false 10 Some [] bo_fetch bo_end 11 (bs "X.a") (TyText (bs "A")) =
    (JText (bs "{""valid_from"": 1000000000, ""expires"": 2000000000, ""max_cache_ttl"": 3600, ""verified_rrs"": [{""type"":""a"",""name"":""x.a."",""address"":[127, 0, 0, 1]}]}"),
     map (doh_url bo_end) y_order).
Proof. split; [exact bo_answers |]. split; [exact bo_serves |]. split; [exact bo_bytes | exact bo_found]. Qed.
Print Assumptions C104_example.
