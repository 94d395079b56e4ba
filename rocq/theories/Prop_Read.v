(** Property C102: the work of reading a request. *)
From Verif Require Import Base RecSpec ValSpec HttpM HttpSpec ReadM ReadP.
From Coq Require Import String.
Import List.ListNotations.
Local Open Scope N_scope.

(** C102. [c_read_req] reads as the server does (C48-C50), and counts the pairs of octets compared with CR LF. *)
Theorem C102_same : forall evs buf, snd (c_read_req evs buf) = read_req evs buf.
Proof. exact read_same. Qed.
Print Assumptions C102_same.
(** However a client cuts what it sends into segments, there are at most 8386560, and at most half the square of the octets sent. *)
Theorem C102_bound : forall evs, fst (c_read_req evs []) <= 8386560 /\ 2 * fst (c_read_req evs []) <= length_of (delivered evs) * (length_of (delivered evs) - 1).
Proof. exact read_bound. Qed.
Print Assumptions C102_bound.
(** Both are reached, by a client which sends one octet at a time. *)
Theorem C102_reached : exists evs, fst (c_read_req evs []) = 8386560.
Proof. exact slow_reached. Qed.
Print Assumptions C102_reached.
Theorem C102_slow : forall k, (k <= 4096)%nat -> 2 * fst (c_read_req (repeat (SData [65]) k) []) = N.of_nat k * (N.of_nat k - 1).
Proof. exact slow_cost. Qed.
Print Assumptions C102_slow.
(** Hence the work is not linear in what was sent, or only with a factor of half the buffer's length; what comes in one piece is gone through once. *)
Theorem C102_linear_refuted : ~ (forall evs, fst (c_read_req evs []) <= 2047 * length_of (delivered evs)).
Proof. exact slow_linear. Qed.
Print Assumptions C102_linear_refuted.
Theorem C102_one_piece : forall d buf, fst (c_read_req [SData d] buf) <= length_of buf + length_of d.
Proof. exact one_piece. Qed.
Print Assumptions C102_one_piece.
Example C102_example : let r := bs "GET / HTTP/1.1" ++ [13; 10; 65] in
  fst (c_read_req [SData r] []) = 15 /\ fst (c_read_req (map (fun c => SData [c]) r) []) = 120 /\ fst (c_read_req [SData (firstn 10 r); SWouldBlock; SData (skipn 10 r)] []) = 24.
Proof. vm_compute. repeat split. Qed.
