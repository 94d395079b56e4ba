(** Witnesses for C53 and C58. *)
From Verif Require Import Base BaseP NameM NameSpec NameP WireM WireSpec RRM SerM RecSpec RecP2 ValM QueryM QBufP QuerySpec QueryP QueryP2 QueryP3 QueryW WasmM WasmSpec WasmP.
From Coq Require Import String Lia.
Local Open Scope N_scope.

(** Playing a session: [Some m] is a response, [None] a request for the next query. *)
Definition play1 (dbg : bool) (st : list event * outcome unit wasm) (x : option (list N)) : list event * outcome unit wasm :=
  match snd st with
  | Ok w => match x with
            | Some m => (fst st ++ [Gave m], process_query_response dbg w m)
            | None => let '(q, w') := get_next_query w in (fst st ++ [Took q], Ok w')
            end
  | _ => st
  end.
Definition play (dbg : bool) (nm : list N) (ty : N) (xs : list (option (list N))) : list event * outcome unit wasm :=
  fold_left (play1 dbg) xs ([], match init_proof_builder nm ty with Ok (Some w) => Ok w | _ => Panic end).

(* The longest possible response: an answer, and octets which are not looked at. *)
Definition m_longest : list N := let m := m_plain 60 in m ++ repeat 0 (N.to_nat (65535 - len m)).
Definition w_init : wasm := {| w_builder := builder_init; w_queue := [root_query] |}.

Lemma w_inits : init_proof_builder [46] 1 = Ok (Some w_init).
Proof. vm_compute. reflexivity. Qed.
Lemma longest_proof : exists p ttl, finish_proof (snd (process_response false builder_init m_longest)) = Ok (p, ttl).
Proof. do 2 eexists. vm_compute. reflexivity. Qed.
Lemma longest_calls : Calls false builder_init [(m_longest, fst (process_response false builder_init m_longest))] (snd (process_response false builder_init m_longest)).
Proof.
  apply (Calls_snoc false builder_init [] builder_init); [constructor | destruct (process_response false builder_init m_longest); reflexivity | |].
  - intros C. vm_compute in C. discriminate.
  - intros C. vm_compute in C. discriminate.
Qed.
Lemma longest_session : Session false w_init [Gave m_longest] w_init.
Proof. apply (Session_give false w_init [] w_init); [constructor |]. vm_compute. reflexivity. Qed.
Lemma proof_refuted : ~ (forall dbg nm ty w0 evs w n b0 q0 tr b, ty < 65536 -> init_proof_builder nm ty = Ok (Some w0) -> Session dbg w0 evs w ->
  name_try_from (completed nm) = Some n -> builder_new n ty = Ok (b0, q0) -> Calls dbg b0 tr b -> map fst tr = short 65536 (given evs) ->
  forall p, get_unverified_proof w = Some p <-> exists ttl, finish_proof b = Ok (p, ttl)).
Proof.
  intros H. destruct longest_proof as (p & ttl & F).
  pose proof (H false [46] 1 w_init [Gave m_longest] w_init [46] builder_init root_query _ _ eq_refl w_inits longest_session eq_refl root_builder longest_calls) as K.
  assert (E : map fst [(m_longest, fst (process_response false builder_init m_longest))] = short 65536 (given [Gave m_longest])).
  { cbn [map fst given flat_map app short filter]. replace (N.of_nat (List.length m_longest) <? 65536) with true by (vm_compute; reflexivity). reflexivity. }
  pose proof (proj2 (K E p) (ex_intro _ ttl F)) as C. vm_compute in C. discriminate.
Qed.
