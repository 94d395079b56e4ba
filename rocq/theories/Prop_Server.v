(** Properties C66 and C67: the HTTP server with all its connections. [acts] is what happens, in any order: a connection is
    accepted, something arrives from a client or from the resolver for a connection, a task is polled. *)
From Verif Require Import Base NameM RRM SerM ValM NameSpec RecSpec ValSpec QueryM QuerySpec AcceptSpec ValW TextSpec HttpM HttpSpec OrderW LiveSpec LiveW LiveW2 ServerM ServerSpec ServerP2 ServerW ServerW2.
From Coq Require Import String Permutation.
Local Open Scope N_scope.

(** C66. A client which asks for a name, with a resolver which answers and well-signed zones (C64), gets the proof: 200, the
    length of the body, the least TTL, and a body which validates with exactly the answers; whatever happens to other
    connections, and however the client's and the resolver's bytes are cut into segments. *)
Theorem C66_works_partial : forall e dbg zones answers n ty data resp line, AsksFor line n ty -> SortsNeeds e ->
  WellSigned e zones answers (FirstVouched e) -> Serves zones answers n ty data -> Answers data dbg n ty resp ->
  (forall m t rt, Asked data n ty m t -> In rt (data m t) -> wf_rr (fst rt)) -> (List.length zones <= 5)%nat ->
  Delivers e dbg zones answers n ty data resp line.
Proof. exact server_works. Qed.
Print Assumptions C66_works_partial.
(** Missing: more than five zones, ... *)
Theorem C66_zones_refuted : ~ (forall e dbg zones answers n ty data resp line, AsksFor line n ty -> SortsNeeds e ->
  WellSigned e zones answers (FirstVouched e) -> Serves zones answers n ty data -> Answers data dbg n ty resp ->
  (forall m t rt, Asked data n ty m t -> In rt (data m t) -> wf_rr (fst rt)) -> Delivers e dbg zones answers n ty data resp line).
Proof. exact server_zones_refuted. Qed.
Print Assumptions C66_zones_refuted.
(** ... DNSKEYs of which the DS record does not name the first to sign, ... *)
Theorem C66_key_order_refuted : ~ (forall e dbg zones answers n ty data resp line, AsksFor line n ty -> SortsNeeds e ->
  WellSigned e zones answers (SomeVouched e) -> Serves zones answers n ty data -> Answers data dbg n ty resp ->
  (forall m t rt, Asked data n ty m t -> In rt (data m t) -> wf_rr (fst rt)) -> (List.length zones <= 5)%nat -> Delivers e dbg zones answers n ty data resp line).
Proof. exact server_key_order_refuted. Qed.
Print Assumptions C66_key_order_refuted.
(** ... and bytes which are not ASCII after the request line (false: C48_serves_refuted). *)
Example C66_example : tk_ctl (sw_task false 0) = Ended /\ tk_out (sw_task false 0) = http_message (proof_lines (bs "531") (bs "60")) (fst sw_proof) /\
  List.length (fst sw_proof) = 531%nat /\ match parse_rr_stream false (fst sw_proof) with
  | Ok inp => match verify_rr_stream echo_env false 10 inp with Ok v => vr_rrs v = [w_a "x.a."] | _ => False end
  | _ => False
  end.
Proof. vm_compute. repeat split. Qed.

(** C67. What a connection writes, to its client and to the resolver, is a function of what reaches this connection
    ([Served], which puts C48 and the proof builder together); nothing is written to the client before the end. *)
Theorem C67_served : forall dbg acts i t, (forall d, In (RBytes d) (resolver_of i 0 acts) -> is_bytes d) -> nth_error (sv_tasks (run_server dbg acts)) i = Some t ->
  (tk_ctl t = Ended -> Served dbg (client_of i 0 acts) (resolver_of i 0 acts) (tk_out t) (tk_sent t)) /\ (tk_ctl t <> Ended -> tk_out t = []).
Proof. exact server_served. Qed.
Print Assumptions C67_served.
Theorem C67_served_unique : forall dbg cs rs o s o' s', Served dbg cs rs o s -> Served dbg cs rs o' s' -> o = o' /\ s = s'.
Proof. exact served_unique. Qed.
Print Assumptions C67_served_unique.
(** Hence connections do not influence one another, even if one of them panics. *)
Theorem C67_isolated : forall dbg acts acts' i t t', (forall d, In (RBytes d) (resolver_of i 0 acts) -> is_bytes d) ->
  nth_error (sv_tasks (run_server dbg acts)) i = Some t -> nth_error (sv_tasks (run_server dbg acts')) i = Some t' ->
  client_of i 0 acts = client_of i 0 acts' -> resolver_of i 0 acts = resolver_of i 0 acts' -> tk_ctl t = Ended -> tk_ctl t' = Ended ->
  tk_out t = tk_out t' /\ tk_sent t = tk_sent t'.
Proof. exact server_isolated. Qed.
Print Assumptions C67_isolated.
(** Nor do they hold one another up: a connection whose task is polled often enough has ended, or waits for its own client or
    the resolver ... *)
Theorem C67_progress_partial : forall dbg acts later i cs rs t0, ~ In AcceptFails (acts ++ later) -> nth_error (sv_tasks (run_server dbg acts)) i = Some t0 ->
  client_of i 0 acts = cs -> client_of i 0 (acts ++ later) = cs -> resolver_of i 0 acts = rs -> resolver_of i 0 (acts ++ later) = rs ->
  (forall d, In (RBytes d) rs -> is_bytes d) -> (work cs rs <= polls i later)%nat ->
  exists t, nth_error (sv_tasks (run_server dbg (acts ++ later))) i = Some t /\ (tk_ctl t = Ended \/ Waits dbg cs rs).
Proof. exact server_progress. Qed.
Print Assumptions C67_progress_partial.
(** ... unless [accept] fails once, which ends them all; ... *)
Theorem C67_progress_refuted : ~ (forall dbg acts later i cs rs t0, nth_error (sv_tasks (run_server dbg acts)) i = Some t0 ->
  client_of i 0 acts = cs -> client_of i 0 (acts ++ later) = cs -> resolver_of i 0 acts = rs -> resolver_of i 0 (acts ++ later) = rs ->
  (forall d, In (RBytes d) rs -> is_bytes d) -> (work cs rs <= polls i later)%nat ->
  exists t, nth_error (sv_tasks (run_server dbg (acts ++ later))) i = Some t /\ (tk_ctl t = Ended \/ Waits dbg cs rs)).
Proof. exact accept_refuted. Qed.
Print Assumptions C67_progress_refuted.
(** ... and there are no timeouts: a silent client is waited for forever. *)
Theorem C67_ends_refuted : ~ (forall dbg acts i t0, nth_error (sv_tasks (run_server dbg acts)) i = Some t0 ->
  exists k t, nth_error (sv_tasks (run_server dbg (acts ++ repeat (Poll i) k))) i = Some t /\ tk_ctl t = Ended).
Proof. exact waits_refuted. Qed.
Print Assumptions C67_ends_refuted.
(** Four connections: a proof; another path; a silent client; a response which makes the debug build panic. *)
Example C67_example :
  map (fun i => tk_ctl (sw_task true i)) [0; 1; 3]%nat = [Ended; Ended; Ended] /\ tk_ctl (sw_task true 2) = Reading [] /\
  tk_out (sw_task true 0) = tk_out (sw_task false 0) /\ tk_out (sw_task true 1) = error_message "404 Not Found" "9" "Not Found" /\
  tk_out (sw_task true 3) = [] /\ firstn 15 (tk_out (sw_task false 3)) = bs "HTTP/1.1 200 OK".
Proof. vm_compute. repeat split. Qed.
