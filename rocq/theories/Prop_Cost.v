(** Property C100: what one connection can cost the server, and the resolver. *)
From Verif Require Import Base NameM SerM RRM RecSpec QueryM QuerySpec HttpM LiveSpec ServerM ServerSpec ServerW CostSpec CostP CostP2 CostW.
Local Open Scope N_scope.

(** C100. Whoever answers, and whatever is answered, [build_proof] sends at most ten queries of at most 2595 octets together; ... *)
Theorem C100_build : forall dbg fuel n ty segs r sent, name_try_from n = Some n -> ty < 65536 -> is_bytes (concat segs) -> build_proof dbg fuel n ty segs = (r, sent) ->
  length_of (concat sent) <= SENT /\ (length sent <= 10)%nat.
Proof. exact build_sends. Qed.
Print Assumptions C100_build.
(** ... at any time, with any number of other connections, a connection has written at most [ANSWER] octets to its client and 2595 to
    the resolver; it holds less than 4096 octets of a request, or at most [PROOF] octets of a proof for which it took at most ten
    messages from the resolver. *)
Theorem C100_task : forall dbg acts i t, (forall d, In (RBytes d) (resolver_of i 0 acts) -> is_bytes d) -> nth_error (sv_tasks (run_server dbg acts)) i = Some t ->
  length_of (tk_out t) <= ANSWER /\ length_of (tk_sent t) <= SENT /\
  match tk_ctl t with
  | Reading buf => length_of buf < REQUEST
  | Proving b got => length_of (pb_proof b) <= PROOF /\ exists segs, resolver_of i 0 acts = RConnected :: map RBytes segs ++ tk_resolver t /\ length_of (concat segs) <= TAKEN + length_of got
  | _ => True
  end.
Proof. exact task_cost. Qed.
Print Assumptions C100_task.
(** The 2595 octets are reached. *)
Theorem C100_sent_reached : exists acts, (forall d, In (RBytes d) (resolver_of 0 0 acts) -> is_bytes d) /\
  forall dbg, exists t, nth_error (sv_tasks (run_server dbg acts)) 0 = Some t /\ length_of (tk_sent t) = SENT.
Proof. exact sent_reached. Qed.
Print Assumptions C100_sent_reached.
(** The server as a whole holds any number of octets: nothing limits the number of connections, nor ends one which waits. *)
Theorem C100_total_refuted : ~ (exists most, forall dbg acts, (forall i d, In (RBytes d) (resolver_of i 0 acts) -> is_bytes d) -> all_held (run_server dbg acts) <= most).
Proof. exact total_refuted. Qed.
Print Assumptions C100_total_refuted.
Example C100_example : sent_length false 0 sw_acts = Some 128 /\ sent_length true 1 sw_acts = Some 0 /\ sent_length true 0 long_acts = Some 2595 /\
  length_of long_resp = 1229 /\ all_held (run_server true (flat_map one (seq 0 3))) = 12285.
Proof. vm_compute. repeat split. Qed.
