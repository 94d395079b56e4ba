(** Property C99: the answers may come in any order. *)
From Verif Require Import Base NameM NameSpec WireM RRM SerM RecSpec RecP2 ValSpec ValM OrderSpec QueryM QuerySpec AcceptSpec LiveSpec ValW OrderW ArriveSpec ArriveP2 ArriveW.
From Coq Require Import Permutation String.
Import List.ListNotations.
Local Open Scope N_scope.

(** C99. If the answers of a resolver, in some order, give a proof then in any other order they do as well. The same
    queries are sent, the TTL is the same, and the proof has the same records. *)
Theorem C99_order : forall dbg answer n ty b0 q0 order b order' b' p ttl, (forall q, is_bytes (answer q)) -> builder_new n ty = Ok (b0, q0) ->
  Arrive dbg answer b0 [qb_deref q0] order b [] -> finish_proof b = Ok (p, ttl) -> Arrive dbg answer b0 [qb_deref q0] order' b' [] ->
  Permutation order order' /\ exists p' items items', finish_proof b' = Ok (p', ttl) /\
    Brings dbg answer order items /\ Brings dbg answer order' items' /\ Permutation items items' /\ p = write_all items /\ p' = write_all items'.
Proof. exact any_order. Qed.
Print Assumptions C99_order.
(** No order gets stuck: however far it went, only queries of the other order were sent, each answer still waited for
    is accepted if it is the next, and all of them can come in. *)
Theorem C99_goes_on : forall dbg answer n ty b0 q0 order b order' b' w p ttl, (forall q, is_bytes (answer q)) -> builder_new n ty = Ok (b0, q0) ->
  Arrive dbg answer b0 [qb_deref q0] order b [] -> finish_proof b = Ok (p, ttl) -> Arrive dbg answer b0 [qb_deref q0] order' b' w ->
  incl (order' ++ w) order /\ (forall q, In q w -> exists qs b2, process_response dbg b' (answer q) = (Ok qs, b2)) /\
  exists more b2, Arrive dbg answer b' w more b2 [].
Proof. exact any_start. Qed.
Print Assumptions C99_goes_on.
(** Over TCP: a server may answer the queries in any order, in segments as it likes. *)
Theorem C99_tcp : forall dbg answer n ty b0 q0 order b p ttl, (forall q, is_bytes (answer q)) -> name_try_from n = Some n -> ty < 65536 -> builder_new n ty = Ok (b0, q0) ->
  Arrive dbg answer b0 [qb_deref q0] order b [] -> finish_proof b = Ok (p, ttl) -> Forall (fun q => length_of (answer q) <= 65535) order ->
  exists sent, Permutation sent (map frame order) /\
    forall segs rest, List.concat segs = flat_map frame (map answer order) ++ rest -> build_proof dbg 10 n ty segs = (Ok (p, ttl), sent).
Proof. exact over_tcp. Qed.
Print Assumptions C99_tcp.
(** The octets of the proof are not the same. *)
Theorem C99_bytes_refuted : ~ (forall dbg answer n ty b0 q0 order b order' b' p ttl p' ttl', (forall q, is_bytes (answer q)) -> builder_new n ty = Ok (b0, q0) ->
  Arrive dbg answer b0 [qb_deref q0] order b [] -> finish_proof b = Ok (p, ttl) -> Arrive dbg answer b0 [qb_deref q0] order' b' [] -> finish_proof b' = Ok (p', ttl') -> p' = p).
Proof. exact bytes_refuted. Qed.
Print Assumptions C99_bytes_refuted.
(** Full statement: whether the proof verifies does not depend on the order. Proved if the DNSKEYs of each zone and the
    RRSIGs over them are in one answer, and for records as in C60: the writer and the reader agree on them (C43), no
    signature over nothing with labels 255, and denials for one zone with at most two sets of NSEC3 parameters. *)
Theorem C99_verdict_partial : forall dbg answer n ty b0 q0 order b order' b' p ttl e dbg1, (forall q, is_bytes (answer q)) -> builder_new n ty = Ok (b0, q0) ->
  Arrive dbg answer b0 [qb_deref q0] order b [] -> finish_proof b = Ok (p, ttl) -> Arrive dbg answer b0 [qb_deref q0] order' b' [] ->
  KeysTogether dbg answer order -> (forall items, Brings dbg answer order items -> Forall wf_rr (map fst items) /\
    (forall s, In (RR_RRSig s) (map fst items) -> ~ EmptyMaxLabels (map fst items) s) /\ TwoParams e (map fst items) /\ OneZone e (map fst items)) -> SortsNeeds e ->
  exists p' rs rs', finish_proof b' = Ok (p', ttl) /\ parse_rr_stream dbg1 p = Ok rs /\ parse_rr_stream dbg1 p' = Ok rs' /\
    forall fuel v, verify_rr_stream e false fuel rs = Ok v -> exists fuel' v', verify_rr_stream e false fuel' rs' = Ok v' /\ SameResult v v'.
Proof. exact any_order_verdict. Qed.
Print Assumptions C99_verdict_partial.
(** Without the first of these it does: an RRSIG over the DNSKEYs of the root, for a key which is not there, in the answer for
    the DNSKEYs of another zone. *)
Theorem C99_verdict_refuted : ~ (forall dbg answer n ty b0 q0 order b order' b' p ttl p' ttl' e dbg1 rs rs' fuel v, (forall q, is_bytes (answer q)) -> builder_new n ty = Ok (b0, q0) ->
  Arrive dbg answer b0 [qb_deref q0] order b [] -> finish_proof b = Ok (p, ttl) -> Arrive dbg answer b0 [qb_deref q0] order' b' [] -> finish_proof b' = Ok (p', ttl') ->
  (forall items, Brings dbg answer order items -> Forall wf_rr (map fst items) /\
    (forall s, In (RR_RRSig s) (map fst items) -> ~ EmptyMaxLabels (map fst items) s) /\ TwoParams e (map fst items) /\ OneZone e (map fst items)) -> SortsNeeds e ->
  parse_rr_stream dbg1 p = Ok rs -> parse_rr_stream dbg1 p' = Ok rs' -> verify_rr_stream e false fuel rs = Ok v -> exists fuel' v', verify_rr_stream e false fuel' rs' = Ok v').
Proof. exact verdict_refuted. Qed.
Print Assumptions C99_verdict_refuted.
(** Two orders of the four answers for x.a.: the DNSKEYs of a. second, or last. *)
Example C99_example : exists b0 q0 b b' p p',
  (builder_new (bs "x.a.") 1 = Ok (b0, q0) /\ Arrive false y_answer b0 [qb_deref q0] y_order b [] /\ finish_proof b = Ok (p, 60)) /\
  (builder_new (bs "x.a.") 1 = Ok (b0, q0) /\ Arrive false y_answer b0 [qb_deref q0] y_other b' [] /\ finish_proof b' = Ok (p', 60)).
Proof. destruct y_runs as [R R']. destruct (two_orders _ _ _ _ _ _ _ _ _ R R') as (b0 & q0 & b & b' & C & C'). exists b0, q0, b, b', (y_proof y_order), (y_proof y_other). exact (conj C C'). Qed.
Print Assumptions C99_example.
Example C99_verdict_example : (KeysTogether false y_answer y_order /\ SortsNeeds echo_env /\
  forall items, Brings false y_answer y_order items -> Forall wf_rr (map fst items) /\
    (forall s, In (RR_RRSig s) (map fst items) -> ~ EmptyMaxLabels (map fst items) s) /\ TwoParams echo_env (map fst items) /\ OneZone echo_env (map fst items)) /\
  only_xa (y_verdict echo_env (y_proof y_order)) = true /\ only_xa (y_verdict echo_env (y_proof y_other)) = true.
Proof. exact (conj (conj y_together (conj echo_sorts y_hyps)) y_verified). Qed.
Print Assumptions C99_verdict_example.
