(** Property C95: what reaches the other side when a socket takes a part only, or fails. [evs] is what the socket does, write by write. *)
From Verif Require Import Base NameM RRM JsonM QueryM HttpM HttpSpec WriteM WriteSpec WriteP WriteW.
From Coq Require Import String List.
Local Open Scope N_scope.

(** C95. As long as no write fails the client gets the answer, in whatever pieces it is taken. *)
Theorem C95_whole : forall r evs, Forall (fun ev => ~ Fails ev) evs ->
  Prefix (fst (write_reply r evs)) (render r) /\ (snd (write_reply r evs) <> None -> fst (write_reply r evs) = render r) /\
  ((List.length (render r) <= List.length evs)%nat -> snd (write_reply r evs) <> None).
Proof. exact reply_whole. Qed.
Print Assumptions C95_whole.
(** If a connection which has failed takes nothing any more, the client gets a beginning of the answer, *)
Theorem C95_prefix_partial : forall r evs, StaysFailed evs -> Prefix (fst (write_reply r evs)) (render r).
Proof. exact reply_prefix. Qed.
Print Assumptions C95_prefix_partial.
(** and if that is a whole message then it is the whole answer. *)
Theorem C95_client_partial : forall prove evs r wevs b, serve prove evs = Some r -> StaysFailed wevs -> Framed (fst (write_reply r wevs)) b ->
  fst (write_reply r wevs) = render r /\ b = match r with Plain _ t => bs t | Proof p _ => p end.
Proof. exact client_gets. Qed.
Print Assumptions C95_client_partial.
(** Missing: other connections. The error is ignored and the proof is written after what there is of the header. *)
Theorem C95_prefix_refuted : ~ (forall prove evs r wevs, serve prove evs = Some r -> Prefix (fst (write_reply r wevs)) (render r)).
Proof. exact prefix_refuted. Qed.
Print Assumptions C95_prefix_refuted.
(** The resolver always gets a beginning of the queries, and all of them if there is no error. *)
Theorem C95_queries : forall qs evs sent r evs', write_queries qs evs = (sent, r, evs') -> Prefix sent (flat_map send_query qs) /\ (r = WDone -> sent = flat_map send_query qs).
Proof. exact queries_prefix. Qed.
Print Assumptions C95_queries.
(** In two pieces; cut in the header; cut in the proof; and two queries of which the second is cut. *)
Example C95_example : write_reply wr_reply [WTakes 100; WTakes 1000; WTakes 1000] = (render wr_reply, Some []) /\
  write_reply wr_reply [WTakes 17; WFails; WFails] = (bs "HTTP/1.1 200 OK" ++ crlf, Some []) /\
  write_reply wr_reply [WTakes 1000; WTakes 2; WFails] = (proof_header [0; 0; 16; 0; 1] 60 ++ [0; 0], Some []) /\
  write_queries [[7; 8]; [9]] [WTakes 2; WTakes 1; WTakes 1; WTakes 1; WFails; WTakes 1] = ([0; 2; 7; 8; 0], WError, [WTakes 1]).
Proof. exact wr_example. Qed.
