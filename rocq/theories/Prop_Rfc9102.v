(** Property C77: the order of the records in a built proof. *)
From Verif Require Import Base NameM NameSpec WireM RRM SerM RecSpec ValSpec ValW QueryM QuerySpec QueryW Rfc9102Spec Rfc9102P Rfc9102W.
From Coq Require Import String.
Local Open Scope N_scope.

(** C77. [itemss] has the records of each response and [pos] says which query it answers. The answer comes first and every query is answered;
    for each RRSIG the keys and the DS of its signer are asked for, and such an answer comes after a response with such an RRSIG. *)
Theorem C77_chain_order : forall dbg n ty b0 q0 tr b proof ttl pos, builder_new n ty = Ok (b0, q0) -> Calls dbg b0 tr b ->
  Forall (fun c => is_bytes (fst c)) tr -> finish_proof b = Ok (proof, ttl) -> Forall (fun c => is_ok (snd c) = true) tr -> Answering tr pos ->
  exists itemss, Forall2 (Response (negb dbg)) (map fst tr) itemss /\ proof = flat_map (fun rt => write_rr (fst rt) (snd rt)) (List.concat itemss) /\
    nth_error pos 0 = Some 0%nat /\ (forall p, In p pos <-> (p <= List.length (handed tr))%nat) /\
    (forall k, In k (flat_map signer_of (List.concat itemss)) -> forall t, In t (key_types k) -> exists q, In q (handed tr) /\ Query k t (qb_deref q)) /\
    forall i p, nth_error pos (Datatypes.S i) = Some p -> exists q k t, nth_error (q0 :: handed tr) p = Some q /\ Query k t (qb_deref q) /\ In t (key_types k) /\
      exists j its rt, (j <= i)%nat /\ nth_error itemss j = Some its /\ In rt its /\ In k (signer_of rt).
Proof. exact chain_order. Qed.
Print Assumptions C77_chain_order.
(** The chain need not end with the keys of the root. *)
Theorem C77_root_last_refuted : ~ (forall dbg n ty b0 q0 tr b proof ttl pos, builder_new n ty = Ok (b0, q0) -> Calls dbg b0 tr b ->
  Forall (fun c => is_bytes (fst c)) tr -> finish_proof b = Ok (proof, ttl) -> Forall (fun c => is_ok (snd c) = true) tr -> Answering tr pos ->
  Signer (negb dbg) tr [46] -> exists p q, last pos 0%nat = p /\ nth_error (q0 :: handed tr) p = Some q /\ Query [46] 48 (qb_deref q)).
Proof. exact root_last_refuted. Qed.
Print Assumptions C77_root_last_refuted.
(** An answer in a., below the root, with the queries answered in the order they were made and in another: both finish. *)
Example C77_example : answering_ok (ch_run ch_prompt) [0; 1; 2; 3]%nat = true /\ answering_ok (ch_run ch_late) [0; 2; 3; 1]%nat = true /\
  answering_ok (ch_run ch_late) [0; 3; 2; 1]%nat = false /\
  ch_names ch_prompt = Some [bs "x."; bs "x."; bs "a."; bs "a."; bs "a."; bs "a."; bs "."; bs "."] /\
  ch_names ch_late = Some [bs "x."; bs "x."; bs "a."; bs "a."; bs "."; bs "."; bs "a."; bs "a."] /\
  (* without the keys of a. the proof does not finish *)
  finished [ch_answer; ch_ds_a; ch_key_root] = Err tt.
Proof. repeat match goal with |- _ /\ _ => split end; vm_compute; reflexivity. Qed.
