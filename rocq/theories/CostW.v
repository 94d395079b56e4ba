(** Witnesses for what a connection can cost. *)
From Verif Require Import Base NameM RRM SerM QueryM RecSpec QuerySpec QueryW HttpM HttpSpec LiveSpec ServerM ServerSpec ServerW CostSpec RecP2.
From Coq Require Import Lia String.
Import List.ListNotations.
Local Open Scope N_scope.

(** The longest names: 255 characters. *)
Definition long_wire (c : N) : list N := (63 :: repeat c 63) ++ (63 :: repeat c 63) ++ (63 :: repeat c 63) ++ (62 :: repeat c 62) ++ [0].
Definition long_text (c : N) : list N := repeat c 63 ++ [46] ++ repeat c 63 ++ [46] ++ repeat c 63 ++ [46] ++ repeat c 62 ++ [46].
(** A response with RRSIGs by four zones with the longest names, and by the root. *)
Definition long_resp : list N := q_msg q_ok 6 0 (q_a 60 ++ flat_map (fun w => q_sig 60 w) (map long_wire [97; 98; 99; 100] ++ [[0]])).
Definition long_acts : list action :=
  [Accept; FromClient 0 (SData (bs "GET /dnssecproof?d=" ++ long_text 101 ++ bs "&t=a HTTP/1.1" ++ [13; 10])); Poll 0; FromResolver 0 RConnected; Poll 0; FromResolver 0 (RBytes (frame long_resp)); Poll 0; Poll 0].
Definition sent_length (dbg : bool) (i : nat) (acts : list action) : option N :=
  option_map (fun t => N.of_nat (List.length (tk_sent t))) (nth_error (sv_tasks (run_server dbg acts)) i).
Lemma long_sends dbg : sent_length dbg 0 long_acts = Some SENT.
Proof. destruct dbg; vm_compute; reflexivity. Qed.
Lemma long_bytes d : In (RBytes d) (resolver_of 0 0 long_acts) -> is_bytes d.
Proof.
  change (resolver_of 0 0 long_acts) with [RConnected; RBytes (frame long_resp)]. intros [E | [E | []]]; [discriminate E |]. injection E as <-. apply is_bytes_ok. vm_compute. reflexivity.
Qed.
Lemma sent_reached : exists acts, (forall d, In (RBytes d) (resolver_of 0 0 acts) -> is_bytes d) /\ forall dbg, exists t, nth_error (sv_tasks (run_server dbg acts)) 0 = Some t /\ length_of (tk_sent t) = SENT.
Proof.
  exists long_acts. split; [exact long_bytes |]. intros dbg. pose proof (long_sends dbg) as S. unfold sent_length in S. destruct (nth_error _ 0) as [t |]; [| discriminate S].
  exists t. split; [reflexivity |]. injection S as S. exact S.
Qed.
