(** Witnesses for C51 and C52. *)
From Verif Require Import Base NameM WireM RRM SerM ValM NameSpec RecSpec RecP2 ValSpec ValW TextSpec JsonM JsonSpec JsonP JsonP2 JsonP3 JsonP4 JsonP5.
From Coq Require Import String Lia.
Local Open Scope N_scope.

(* An A record of the one-label name \q; \q is not a JSON escape. *)
Definition j_bad : RR := w_a "\q.".
(* \n is one, but it does not stand for itself. *)
Definition j_wrong : RR := w_a "\n.".
Definition j_txt (s : list N) : RR := RR_Txt {| tx_name := bs "x.a."; tx_data := s |}.

Lemma j_bad_held : Held j_bad.
Proof. unfold j_bad. held_one. Qed.
Lemma j_bad_not v : ~ Json (rr_json j_bad) v.
Proof.
  intros J. apply json_parses in J as (f & J). destruct (J (S (S (S (S (S (S f)))))) ltac:(lia)) as (w & P & _). vm_compute in P. discriminate.
Qed.
Lemma json_refuted : ~ (forall r, Held r -> exists v, Json (rr_json r) v /\ Describes r v).
Proof. intros H. destruct (H _ j_bad_held) as (v & J & _). exact (j_bad_not v J). Qed.

Definition w_back : list RR := w_root ++ w_zone "a." 1 ++ [w_a "\q.a."; w_sig "\q.a." 1 2 "a."].
Definition stream_of (l : list RR) : list N := flat_map (fun r => write_rr r 3600) l.
Definition back_text : list N := match verify_byte_stream toy_env false 10 (stream_of w_back) with Ok t => t | _ => [] end.

Lemma back_runs : verify_byte_stream toy_env false 10 (stream_of w_back) = Ok back_text.
Proof. vm_compute. reflexivity. Qed.
Lemma back_not v : ~ Json back_text v.
Proof.
  intros J. apply json_parses in J as (f & J). destruct (J (30 + f)%nat ltac:(lia)) as (w & P & _). vm_compute in P. discriminate.
Qed.
Lemma stream_json_refuted : ~ (forall e dbg fuel stream text, is_bytes stream -> verify_byte_stream e dbg fuel stream = Ok text -> exists v, Json text v).
Proof.
  intros H. destruct (H toy_env false 10%nat (stream_of w_back) back_text) as (v & J); [bytes_in_range | exact back_runs |]. exact (back_not v J).
Qed.
