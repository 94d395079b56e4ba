(** Witnesses for Prop_Same. *)
From Verif Require Import Base BaseP NameM NameSpec WireM RRM SerM RecSpec RecP2 ValM QueryM QuerySpec AcceptSpec TextSpec HttpM HttpSpec HttpP OrderW LiveSpec ServerM ServerSpec ServerP ServerP2 ServerW ServerW2 ArriveSpec ArriveP ArriveP2 ArriveW SameSpec SameP.
From Coq Require Import String Lia List PeanoNat Permutation.
Import ListNotations.
Local Open Scope N_scope.

(** Two clients of one server ask for the addresses of x.a., written in different ways. *)
Definition sm_line0 : list N := bs "GET /dnssecproof?d=X.a.&t=A HTTP/1.1".
Definition sm_line1 : list N := bs "GET /dnssecproof?t=a&u=1&d=x.A. HTTP/1.0".
Definition sm_acts : list action :=
  [Accept; FromClient 0 (SData (sm_line0 ++ [13; 10])); Accept; Poll 0; FromResolver 0 RConnected; FromClient 1 (SData (sm_line1 ++ [13; 10])); Poll 1; FromResolver 1 RConnected; Poll 1;
   FromResolver 1 (RBytes (flat_map frame (map y_answer y_other))); FromResolver 0 (RBytes (flat_map frame (map y_answer y_order)))] ++ repeat (Poll 0) 30 ++ repeat (Poll 1) 30.
Definition sm_task (i : nat) : task := nth i (sv_tasks (run_server false sm_acts)) new_task.
Lemma sm_asks0 : AsksFor sm_line0 (bs "x.a.") 1.
Proof. apply parse_asks. vm_compute. reflexivity. Qed.
Lemma sm_asks1 : AsksFor sm_line1 (bs "x.a.") 1.
Proof. apply parse_asks. vm_compute. reflexivity. Qed.
Lemma sm_ended : (nth_error (sv_tasks (run_server false sm_acts)) 0 = Some (sm_task 0) /\ tk_ctl (sm_task 0) = Ended) /\
  (nth_error (sv_tasks (run_server false sm_acts)) 1 = Some (sm_task 1) /\ tk_ctl (sm_task 1) = Ended).
Proof. vm_compute. repeat split. Qed.
Lemma one_answered acts i line order : client_of i 0 acts = [SData (line ++ [13; 10])] -> resolver_of i 0 acts = [RConnected; RBytes (flat_map frame (map y_answer order))] ->
  first_4096 [SData (line ++ [13; 10])] = line ++ [13; 10] -> forallb (fun c => c <? 128) (line ++ [13; 10]) = true -> forallb (fun c => negb (c =? 13)) line = true ->
  bytes_ok (flat_map frame (map y_answer order)) = true -> Answered y_answer line order acts i.
Proof.
  intros C R F A L B. unfold Answered. rewrite C, R, F. split; [apply ascii_b, A |]. split; [apply first_line_b, L |]. split.
  - intros d [X | [X | []]]; [discriminate X |]. injection X as <-. apply is_bytes_ok, B.
  - exists [flat_map frame (map y_answer order)], [], []. split; [reflexivity |]. cbn [List.concat]. reflexivity.
Qed.
Lemma sm_answered0 : Answered y_answer sm_line0 y_order sm_acts 0.
Proof. apply one_answered; vm_compute; reflexivity. Qed.
Lemma sm_answered1 : Answered y_answer sm_line1 y_other sm_acts 1.
Proof. apply one_answered; vm_compute; reflexivity. Qed.
Lemma sm_differ : bytes_eqb (tk_out (sm_task 0)) (tk_out (sm_task 1)) = false /\ length (tk_out (sm_task 0)) = length (tk_out (sm_task 1)).
Proof. vm_compute. split; reflexivity. Qed.
Lemma y_short : Forall (fun q => length_of (y_answer q) <= 65535) y_order.
Proof.
  assert (H : forallb (fun q => length_of (y_answer q) <=? 65535) y_order = true) by (vm_compute; reflexivity).
  rewrite forallb_forall in H. apply Forall_forall. intros q Hq. apply N.leb_le, H, Hq.
Qed.

Lemma same_refuted : ~ (forall dbg answer n ty b0 q0 order b p ttl order' b' line line' acts i t acts' j t', (forall q, is_bytes (answer q)) -> builder_new n ty = Ok (b0, q0) ->
  Arrive dbg answer b0 [qb_deref q0] order b [] -> finish_proof b = Ok (p, ttl) -> Arrive dbg answer b0 [qb_deref q0] order' b' [] -> Forall (fun q => length_of (answer q) <= 65535) order ->
  AsksFor line n ty -> Answered answer line order acts i -> nth_error (sv_tasks (run_server dbg acts)) i = Some t -> tk_ctl t = Ended ->
  AsksFor line' n ty -> Answered answer line' order' acts' j -> nth_error (sv_tasks (run_server dbg acts')) j = Some t' -> tk_ctl t' = Ended ->
  tk_out t = tk_out t').
Proof.
  intros H. destruct y_runs as [R1 R2]. destruct (two_orders _ _ _ _ _ _ _ _ _ R1 R2) as (b0 & q0 & b1 & b2 & (E & A1 & F1) & _ & A2 & F2). destruct sm_ended as [[N0 E0] [N1 E1]].
  pose proof (H false _ _ _ _ _ _ _ _ _ _ _ _ _ _ _ _ _ _ _ y_bytes E A1 F1 A2 y_short sm_asks0 sm_answered0 N0 E0 sm_asks1 sm_answered1 N1 E1) as X.
  destruct sm_differ as [D _]. rewrite X, bytes_eqb_refl in D. discriminate D.
Qed.
