(** Property C101: responses are not matched to queries. *)
From Verif Require Import Base NameM SerM RRM RecSpec ValSpec RecP2 ValM ValW QueryM QuerySpec QueryP QueryW MatchSpec MatchP MatchW.
From Coq Require Import Permutation.
Local Open Scope N_scope.

(** C101. Of an accepted response only its records matter: another message with the same ones, be it about another question, has the same effect. *)
Theorem C101_records_only : forall dbg b m m' items qs b', is_bytes m -> is_bytes m' -> Response (negb dbg) m items -> Response (negb dbg) m' items ->
  process_response dbg b m = (Ok qs, b') -> process_response dbg b m' = (Ok qs, b').
Proof. exact records_only. Qed.
Print Assumptions C101_records_only.
(** Hence the order in which messages are given, by whatever queries they were caused, makes no difference but to the order of the
    queries and of the records of the proof, as long as they are accepted. *)
Theorem C101_permuted : forall dbg n ty b0 q0 tr b tr' b', builder_new n ty = Ok (b0, q0) -> Calls dbg b0 tr b -> Calls dbg b0 tr' b' ->
  Forall (fun c => is_bytes (fst c)) tr -> Forall (fun c => is_ok (snd c) = true) tr -> Forall (fun c => is_ok (snd c) = true) tr' -> Permutation (map fst tr) (map fst tr') ->
  awaiting_responses b = awaiting_responses b' /\
  forall p ttl, finish_proof b = Ok (p, ttl) -> Permutation (map qb_deref (handed tr)) (map qb_deref (handed tr')) /\
    exists p' items items', finish_proof b' = Ok (p', ttl) /\ Permutation items items' /\ p = write_all items /\ p' = write_all items'.
Proof. exact permuted. Qed.
Print Assumptions C101_permuted.
(** A response which was accepted is accepted again as long as one is awaited: it counts as the answer to another query, asks for nothing,
    and puts its records into the proof once more. *)
Theorem C101_again : forall dbg n ty b0 q0 tr b m, builder_new n ty = Ok (b0, q0) -> Calls dbg b0 tr b -> Forall (fun c => is_bytes (fst c)) tr -> In m (accepted tr) -> pb_pending b <> 0 ->
  exists items, Response (negb dbg) m items /\ process_response dbg b m =
    (Ok [], {| pb_proof := pb_proof b ++ write_all items; pb_min_ttl := pb_min_ttl b; pb_requested := pb_requested b; pb_pending := pb_pending b - 1; pb_made := pb_made b |}).
Proof. exact given_again. Qed.
Print Assumptions C101_again.
(** So a proof is finished without the answers to the queries: their number is what counts (C42). *)
Theorem C101_answered_refuted : ~ (forall dbg n ty b0 q0 tr b p, builder_new n ty = Ok (b0, q0) -> Calls dbg b0 tr b -> Forall (fun c => is_bytes (fst c)) tr ->
  Forall (fun c => is_ok (snd c) = true) tr -> finish_proof b = Ok p -> EachAnswered n ty tr).
Proof. exact answered_refuted. Qed.
Print Assumptions C101_answered_refuted.
Example C101_example : length (handed (fst (t_run false))) = 2%nat /\ length_of t_proof = 162 /\
  (forall dbg, process_response dbg builder_init other_question = process_response dbg builder_init (signers [97])) /\
  match parse_rr_stream false t_proof with Ok inp => match verify_rr_stream toy_env false 10 inp with Err Invalid => length inp = 6%nat | _ => False end | _ => False end.
Proof. split; [vm_compute; reflexivity |]. split; [vm_compute; reflexivity |]. split; [intros []; vm_compute; reflexivity | vm_compute; reflexivity]. Qed.
