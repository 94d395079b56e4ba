(** Witnesses for the server. *)
From Verif Require Import Base BaseP NameM NameSpec WireM RRM SerM ValM RecSpec QueryM QuerySpec QueryW JsonM HttpM HttpSpec HttpP OrderW LiveSpec LiveW LiveW2 ServerM ServerSpec ServerP ServerP2.
From Coq Require Import String Lia List PeanoNat.
Import ListNotations.
Local Open Scope N_scope.

(** Chunks of [k] bytes. *)
Fixpoint chunks (fuel k : nat) (l : list N) : list (list N) :=
  match fuel with
  | O => []
  | Datatypes.S f => match l with [] => [] | _ => firstn k l :: chunks f k (skipn k l) end
  end.
Definition sw_line : list N := bs "GET /dnssecproof?d=X.a.&t=A HTTP/1.1".
Definition sw_qs : list (list N * N) := [(bs "x.a.", 1); (bs "a.", 48); (bs "a.", 43); (bs ".", 48)].
Definition sw_resp : list N := flat_map (fun q => frame (l_resp l_small l_wild (bs "x.a.") 1 (fst q) (snd q))) sw_qs.
(** Four clients: the second asks for another path, the third sends nothing, the fourth asks for something to which the
    resolver gives a response that makes the debug build panic. Everything is interleaved. *)
Definition sw_acts : list action :=
  [Accept; Accept; FromClient 0 (SData (firstn 10 sw_line)); Poll 0; FromClient 1 (SData (bs "GET /x HTTP/1.1")); Accept; Poll 2; Poll 1;
   FromClient 0 SWouldBlock; FromClient 0 (SData (skipn 10 sw_line ++ [13; 10])); FromClient 1 (SData [13]); FromClient 1 (SData [10]); Poll 0; Poll 0; Accept;
   FromClient 3 (SData (bs "GET /dnssecproof?d=b.&t=a HTTP/1.0" ++ [13; 10])); Poll 3; FromResolver 0 RConnected; FromResolver 3 RConnected; Poll 1; Poll 3; Poll 0]
  ++ flat_map (fun d => [FromResolver 0 (RBytes d); Poll 3; Poll 1; Poll 0]) (chunks 1000 7 sw_resp)
  ++ [FromResolver 3 (RBytes (frame (q_msg q_ok 1 0 (q_rec [0] 2 60 [0; 7]))))] ++ repeat (Poll 0) 10 ++ repeat (Poll 3) 4.
Definition sw_task (dbg : bool) (i : nat) : task := nth i (sv_tasks (run_server dbg sw_acts)) new_task.
Definition sw_proof : list N * N := match fst (build_proof false 10 (bs "x.a.") 1 [sw_resp]) with Ok r => r | _ => ([], 0) end.

(** Down after a failure of [accept]: the connection below is never served. *)
Lemma accept_refuted : ~ (forall dbg acts later i cs rs t0, nth_error (sv_tasks (run_server dbg acts)) i = Some t0 ->
  client_of i 0 acts = cs -> client_of i 0 (acts ++ later) = cs -> resolver_of i 0 acts = rs -> resolver_of i 0 (acts ++ later) = rs ->
  (forall d, In (RBytes d) rs -> is_bytes d) -> (work cs rs <= polls i later)%nat ->
  exists t, nth_error (sv_tasks (run_server dbg (acts ++ later))) i = Some t /\ (tk_ctl t = Ended \/ Waits dbg cs rs)).
Proof.
  intros H. specialize (H false [Accept; FromClient 0 (SData [13; 10])] (AcceptFails :: repeat (Poll 0) 10) 0%nat [SData [13; 10]] []
    {| tk_ctl := Reading []; tk_client := [SData [13; 10]]; tk_resolver := []; tk_out := []; tk_sent := [] |} eq_refl eq_refl eq_refl eq_refl eq_refl).
  destruct H as (t & E & K); [intros d [] | vm_compute; repeat constructor |]. vm_compute in E. injection E as <-. destruct K as [K | K]; [discriminate |].
  destruct K as [_ K _ | n ty line F A _ | n ty line segs sent tr b rest _ _ E _ _ _ _ _ _]; [| | discriminate].
  - apply (K []). split; [exists []; reflexivity |]. intros ([] & b & E); discriminate.
  - assert (L : line = []). { eapply first_line_unique; [exact F |]. split; [exists []; reflexivity |]. intros ([] & b & E); discriminate. }
    subst line. destruct A as (d & t & (args & vers & _ & _ & _ & E & _) & _). discriminate.
Qed.

(** A client which sends nothing is waited for forever. *)
Lemma waits_refuted : ~ (forall dbg acts i t0, nth_error (sv_tasks (run_server dbg acts)) i = Some t0 ->
  exists k t, nth_error (sv_tasks (run_server dbg (acts ++ repeat (Poll i) k))) i = Some t /\ tk_ctl t = Ended).
Proof.
  intros H. specialize (H false [Accept] 0%nat new_task eq_refl). destruct H as (k & t & E & K). unfold run_server in E. rewrite fold_left_app in E.
  change (fold_left (act false) [Accept] start) with {| sv_up := true; sv_tasks := [new_task] |} in E.
  assert (S : fold_left (act false) (repeat (Poll 0) k) {| sv_up := true; sv_tasks := [new_task] |} = {| sv_up := true; sv_tasks := [new_task] |}).
  { clear. induction k as [| k IH]; [reflexivity |]. cbn [repeat fold_left]. exact IH. }
  rewrite S in E. injection E as <-. discriminate.
Qed.
