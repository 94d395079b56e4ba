(** Property C103: two clients which ask for the same, on one server or on two, with a resolver which gives the same answers. *)
From Verif Require Import Base NameM RRM SerM RecSpec RecP2 QueryM QuerySpec AcceptSpec TextSpec HttpM HttpSpec ServerM ServerSpec ArriveSpec ArriveW SameSpec SameP SameW.
From Coq Require Import String List Permutation.
Import ListNotations.
Local Open Scope N_scope.

(** C103. If the answers of a resolver, in some order, give a proof, a client which asks for it gets just that, whatever else
    the server does, once its task has been polled often enough. *)
Theorem C103_served : forall dbg answer n ty b0 q0 order b p ttl line acts later i t0, (forall q, is_bytes (answer q)) -> builder_new n ty = Ok (b0, q0) ->
  Arrive dbg answer b0 [qb_deref q0] order b [] -> finish_proof b = Ok (p, ttl) -> Forall (fun q => length_of (answer q) <= 65535) order ->
  AsksFor line n ty -> Answered answer line order acts i -> ~ In AcceptFails (acts ++ later) -> nth_error (sv_tasks (run_server dbg acts)) i = Some t0 ->
  client_of i 0 (acts ++ later) = client_of i 0 acts -> resolver_of i 0 (acts ++ later) = resolver_of i 0 acts ->
  (work (client_of i 0 acts) (resolver_of i 0 acts) <= polls i later)%nat ->
  exists t num age, nth_error (sv_tasks (run_server dbg (acts ++ later))) i = Some t /\ tk_ctl t = Ended /\
    Decimal (length_of p) num /\ Decimal ttl age /\ tk_out t = http_message (proof_lines num age) p.
Proof. exact one_ends. Qed.
Print Assumptions C103_served.
(** Two such clients get the same header, with the same length and max-age, and
    the same records in some order; and the same queries are sent for both. The request lines may be different, and the
    answers may come in different orders. *)
Theorem C103_same : forall dbg answer n ty b0 q0 order b p ttl order' b' line line' acts i t acts' j t', (forall q, is_bytes (answer q)) -> builder_new n ty = Ok (b0, q0) ->
  Arrive dbg answer b0 [qb_deref q0] order b [] -> finish_proof b = Ok (p, ttl) -> Arrive dbg answer b0 [qb_deref q0] order' b' [] -> Forall (fun q => length_of (answer q) <= 65535) order ->
  AsksFor line n ty -> Answered answer line order acts i -> nth_error (sv_tasks (run_server dbg acts)) i = Some t -> tk_ctl t = Ended ->
  AsksFor line' n ty -> Answered answer line' order' acts' j -> nth_error (sv_tasks (run_server dbg acts')) j = Some t' -> tk_ctl t' = Ended ->
  exists num age items items' sent sent', Permutation items items' /\ Permutation sent (map frame order) /\ Permutation sent' (map frame order) /\ Decimal (length_of (write_all items)) num /\ Decimal ttl age /\
    Brings dbg answer order items /\ Brings dbg answer order' items' /\
    tk_out t = http_message (proof_lines num age) (write_all items) /\ tk_out t' = http_message (proof_lines num age) (write_all items') /\
    tk_sent t = List.concat sent /\ tk_sent t' = List.concat sent'.
Proof. exact both_served. Qed.
Print Assumptions C103_same.
(** The octets of the body are not the same if the answers came in another order. *)
Theorem C103_octets_refuted : ~ (forall dbg answer n ty b0 q0 order b p ttl order' b' line line' acts i t acts' j t', (forall q, is_bytes (answer q)) -> builder_new n ty = Ok (b0, q0) ->
  Arrive dbg answer b0 [qb_deref q0] order b [] -> finish_proof b = Ok (p, ttl) -> Arrive dbg answer b0 [qb_deref q0] order' b' [] -> Forall (fun q => length_of (answer q) <= 65535) order ->
  AsksFor line n ty -> Answered answer line order acts i -> nth_error (sv_tasks (run_server dbg acts)) i = Some t -> tk_ctl t = Ended ->
  AsksFor line' n ty -> Answered answer line' order' acts' j -> nth_error (sv_tasks (run_server dbg acts')) j = Some t' -> tk_ctl t' = Ended ->
  tk_out t = tk_out t').
Proof. exact same_refuted. Qed.
Print Assumptions C103_octets_refuted.
(** Two clients of one server, which ask for x.a. in different ways; the answers for the second come in another order. *)
Example C103_example : Answered y_answer (bs "GET /dnssecproof?d=X.a.&t=A HTTP/1.1") y_order sm_acts 0 /\ Answered y_answer (bs "GET /dnssecproof?t=a&u=1&d=x.A. HTTP/1.0") y_other sm_acts 1 /\
  tk_ctl (sm_task 0) = Ended /\ tk_ctl (sm_task 1) = Ended /\ firstn 100 (tk_out (sm_task 0)) = firstn 100 (tk_out (sm_task 1)).
Proof. split; [exact sm_answered0 |]. split; [exact sm_answered1 |]. vm_compute. repeat split. Qed.
Print Assumptions C103_example.
