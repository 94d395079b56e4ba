(** Properties C53 and C58: the WASM proof builder. A [Session] is any interleaving of responses given
    to it and queries taken from it; [tr] below is the same responses given to the library's builder
    (those of 65535 octets or more are ignored) and its results. *)
From Verif Require Import Base NameSpec NameM WireM RRM SerM RecSpec QueryM QuerySpec QueryW WasmM WasmSpec WasmP WasmW.
From Coq Require Import String.
Local Open Scope N_scope.

(** C53. The queries taken, followed by those still waiting, are the first one and those the library
    handed out, in its order; at most ten are ever taken. *)
Theorem C53_fifo : forall dbg nm ty w0 evs w, ty < 65536 -> init_proof_builder nm ty = Ok (Some w0) -> Session dbg w0 evs w ->
  Forall is_bytes (given evs) ->
  exists n b0 q0 tr, name_try_from (completed nm) = Some n /\ builder_new n ty = Ok (b0, q0) /\
    Calls dbg b0 tr (w_builder w) /\ map fst tr = short 65535 (given evs) /\
    taken evs ++ map qb_deref (w_queue w) = map qb_deref (q0 :: handed tr) /\ (List.length (taken evs) <= 10)%nat.
Proof. exact wasm_fifo. Qed.
Print Assumptions C53_fifo.
(** Only when all have been taken is there none to take. *)
Theorem C53_none : forall dbg nm ty w0 e1 e2 w, ty < 65536 -> init_proof_builder nm ty = Ok (Some w0) ->
  Session dbg w0 (e1 ++ Took None :: e2) w ->
  exists n b0 q0 tr b, name_try_from (completed nm) = Some n /\ builder_new n ty = Ok (b0, q0) /\
    Calls dbg b0 tr b /\ map fst tr = short 65535 (given e1) /\ taken e1 = map qb_deref (q0 :: handed tr).
Proof. exact wasm_none. Qed.
Print Assumptions C53_none.
(** Starting a session never panics. *)
Theorem C53_init : forall nm ty, ty < 65536 -> exists r, init_proof_builder nm ty = Ok r.
Proof. exact init_total. Qed.
Print Assumptions C53_init.

(** Take, answer signed by a. and b., take twice, garbage, take four times. *)
Example C53_example :
  let st := play false (bs "x") 1 [None; Some (signers [97; 98]); None; None; Some [1; 2; 3]; None; None; None] in
  map (fun e => match e with Gave m => None | Took q => Some q end) (fst st) =
    (let q n ty := match build_query (bs n) ty with Ok q => Some (qb_deref q) | _ => None end in
     [Some (q "x."%string 1); None; Some (q "a."%string 48); Some (q "a."%string 43); None; Some (q "b."%string 48); Some (q "b."%string 43); Some None]).
Proof. vm_compute. reflexivity. Qed.

(** C58. A session ends with the proof the library would end with on the same responses ... *)
Theorem C58_proof_partial : forall dbg nm ty w0 evs w n b0 q0 tr b, ty < 65536 -> init_proof_builder nm ty = Ok (Some w0) -> Session dbg w0 evs w ->
  name_try_from (completed nm) = Some n -> builder_new n ty = Ok (b0, q0) -> Calls dbg b0 tr b -> map fst tr = short 65535 (given evs) ->
  forall p, get_unverified_proof w = Some p <-> exists ttl, finish_proof b = Ok (p, ttl).
Proof. exact wasm_proof. Qed.
Print Assumptions C58_proof_partial.
(** ... of at most 65534 octets. The full statement, for all responses a DNS message can be (at most 65535
    octets), is false. *)
Theorem C58_proof_refuted : ~ (forall dbg nm ty w0 evs w n b0 q0 tr b, ty < 65536 -> init_proof_builder nm ty = Ok (Some w0) -> Session dbg w0 evs w ->
  name_try_from (completed nm) = Some n -> builder_new n ty = Ok (b0, q0) -> Calls dbg b0 tr b -> map fst tr = short 65536 (given evs) ->
  forall p, get_unverified_proof w = Some p <-> exists ttl, finish_proof b = Ok (p, ttl)).
Proof. exact proof_refuted. Qed.
Print Assumptions C58_proof_refuted.
Example C58_example :
  (exists p, match snd (play false (bs ".") 1 [None; Some (m_plain 60)]) with Ok w => get_unverified_proof w = Some p | _ => False end) /\
  match snd (play false (bs ".") 1 [None; Some m_longest]) with Ok w => get_unverified_proof w = None | _ => False end.
Proof. split; [eexists |]; vm_compute; reflexivity. Qed.
