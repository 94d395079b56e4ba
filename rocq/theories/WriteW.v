(** Witnesses for Prop_Write. *)
From Verif Require Import Base NameM RRM JsonM QueryM HttpM HttpSpec WriteM WriteSpec WriteP.
From Coq Require Import String Lia.
Local Open Scope N_scope.

Definition wr_request : list sock_event := [SData (bs "GET /dnssecproof?d=a.&t=TXT HTTP/1.1" ++ crlf)].
Definition wr_prove : name -> N -> option (bytes * N) := fun _ _ => Some ([0; 0; 16; 0; 1], 60).
Definition wr_reply : reply := Proof [0; 0; 16; 0; 1] 60.
Lemma wr_serves : serve wr_prove wr_request = Some wr_reply.
Proof. vm_compute. reflexivity. Qed.
(** The header is lost and the proof sent. *)
Lemma prefix_refuted : ~ (forall prove evs r wevs, serve prove evs = Some r -> Prefix (fst (write_reply r wevs)) (render r)).
Proof. intros H. destruct (H _ _ _ [WFails; WTakes 1000] wr_serves) as (x & E). apply (f_equal (fun l => nth 0 l 7)) in E. vm_compute in E. discriminate E. Qed.
(** In two pieces; cut in the header; cut in the proof; and two queries of which the second is cut. *)
Lemma wr_example : write_reply wr_reply [WTakes 100; WTakes 1000; WTakes 1000] = (render wr_reply, Some []) /\
  write_reply wr_reply [WTakes 17; WFails; WFails] = (bs "HTTP/1.1 200 OK" ++ crlf, Some []) /\
  write_reply wr_reply [WTakes 1000; WTakes 2; WFails] = (proof_header [0; 0; 16; 0; 1] 60 ++ [0; 0], Some []) /\
  write_queries [[7; 8]; [9]] [WTakes 2; WTakes 1; WTakes 1; WTakes 1; WFails; WTakes 1] = ([0; 2; 7; 8; 0], WError, [WTakes 1]).
Proof. vm_compute. auto. Qed.
