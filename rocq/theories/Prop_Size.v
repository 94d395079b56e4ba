(** Property C78: the size of a built proof. *)
From Verif Require Import Base NameM NameSpec WireM RRM SerM RecSpec QueryM QuerySpec QueryW SizeP SizeW.
Local Open Scope N_scope.

(** C78. Whatever the responses, accepted or not, the records kept from them take at most 261/7 times the octets received after the
    smallest possible header and question (17 octets). *)
Theorem C78_buffer : forall dbg n ty b0 q0 tr b, builder_new n ty = Ok (b0, q0) -> Calls dbg b0 tr b -> Forall (fun c => is_bytes (fst c)) tr ->
  7 * length_of (pb_proof b) <= 261 * fold_right (fun c a => (length_of (fst c) - 17) + a) 0 tr.
Proof. exact buffer_small. Qed.
Print Assumptions C78_buffer.
(** So what [build_proof] returns has an absolute bound, about 24 MB. *)
Theorem C78_built : forall dbg fuel n ty segs proof ttl sent, name_try_from n = Some n -> ty < 65536 -> is_bytes (concat segs) ->
  build_proof dbg fuel n ty segs = (Ok (proof, ttl), sent) -> length_of proof <= 24428854.
Proof. exact built_small. Qed.
Print Assumptions C78_built.
(** No smaller factor will do: 261/7 = 522/14. *)
Theorem C78_tight : forall dbg k, (1 <= k)%nat -> N.of_nat k < 65536 -> exists b proof, is_bytes (z_msg k) /\ length_of (z_msg k) = 272 + 14 * N.of_nat k /\
  process_response dbg builder_init (z_msg k) = (Ok [], b) /\ finish_proof b = Ok (proof, 60) /\ length_of proof = 522 * N.of_nat k.
Proof. exact tight. Qed.
Print Assumptions C78_tight.
(** Ten such records. An ordinary response is not made larger by much. *)
Example C78_example : length_of (z_msg 10) = 412 /\ proof_size (z_msg 10) = Some 5220 /\ length_of (m_plain 60) = 34 /\ proof_size (m_plain 60) = Some 17.
Proof. repeat match goal with |- _ /\ _ => split end; vm_compute; reflexivity. Qed.
