(** Concrete responses for C77. *)
From Verif Require Import Base BaseP NameM NameSpec WireM RRM SerM RecSpec ValSpec ValW ValP NameP WireSpec RecP RecP2 RecP3 HeldP QueryM QBufP QuerySpec QueryP QueryP2 QueryP3 QueryW Rfc9102Spec.
From Coq Require Import String Arith.
Local Open Scope N_scope.

(** An RRSIG over the given owner and type by the given zone, and records of made-up content. *)
Definition ch_sig (owner : list N) (ty : N) (signer : list N) : list N :=
  q_rec owner 46 60 (u16 ty ++ [8; 1] ++ u32 3600 ++ u32 2000000000 ++ u32 1000000000 ++ u16 1 ++ signer ++ [1; 2; 3]).
Definition ch_key (owner : list N) : list N := q_rec owner 48 60 (u16 257 ++ [3; 8; 9; 9]).
Definition ch_ds (owner : list N) : list N := q_rec owner 43 60 (u16 7 ++ [8; 2] ++ repeat 5 32).
(** x. A, the DS of a., the DNSKEYs of the root and those of a. *)
Definition ch_answer : list N := q_msg q_ok 2 0 (q_a 60 ++ ch_sig [1; 120; 0] 1 [1; 97; 0]).
Definition ch_ds_a : list N := q_msg q_ok 2 0 (ch_ds [1; 97; 0] ++ ch_sig [1; 97; 0] 43 [0]).
Definition ch_key_root : list N := q_msg q_ok 2 0 (ch_key [0] ++ ch_sig [0] 48 [0]).
Definition ch_key_a : list N := q_msg q_ok 2 0 (ch_key [1; 97; 0] ++ ch_sig [1; 97; 0] 48 [1; 97; 0]).
Definition ch_query : qbuf := match build_query [120; 46] 1 with Ok q => q | _ => new_zeroed 0 end.
Lemma ch_builder : builder_new [120; 46] 1 = Ok (builder_init, ch_query).
Proof. vm_compute. reflexivity. Qed.

Definition answering_ok (tr : list (list N * outcome unit (list qbuf))) (pos : list nat) : bool :=
  (List.length pos =? List.length tr)%nat && forallb (fun ip => (snd ip <=? List.length (handed (firstn (fst ip) tr)))%nat) (combine (seq 0 (List.length pos)) pos) &&
  (List.length (nodup Nat.eq_dec pos) =? List.length pos)%nat.
Definition ch_run (ms : list (list N)) := fst (exec false builder_init ms).
Lemma nodup_len (pos : list nat) : List.length (nodup Nat.eq_dec pos) = List.length pos -> NoDup pos.
Proof.
  intros H. apply (NoDup_incl_NoDup (l := nodup Nat.eq_dec pos)); [apply NoDup_nodup | lia |]. intros x. apply nodup_In.
Qed.
Lemma answering_of tr pos : answering_ok tr pos = true -> Answering tr pos.
Proof.
  unfold answering_ok. intros H. apply andb_true_iff in H as [H N]. apply andb_true_iff in H as [L F]. apply Nat.eqb_eq in L.
  split; [exact L |]. split; [apply Nat.eqb_eq in N; apply (nodup_len _ N) |]. intros i p Hi. rewrite forallb_forall in F.
  assert (X : In (i, p) (combine (seq 0 (List.length pos)) pos)).
  { clear -Hi. change i with (0 + i)%nat at 1. generalize 0%nat. revert i Hi. induction pos as [| q pos IH]; intros [| i] Hi s; cbn in Hi |- *; try discriminate.
    - injection Hi as ->. left. f_equal. lia.
    - right. replace (s + S i)%nat with (S s + i)%nat by lia. apply IH. exact Hi. }
  apply F in X. cbn [fst snd] in X. apply Nat.leb_le in X. exact X.
Qed.

(** The DNSKEYs of a. were asked for first and are delivered last. *)
Definition ch_late : list (list N) := [ch_answer; ch_ds_a; ch_key_root; ch_key_a].
Definition ch_late_pos : list nat := [0; 2; 3; 1]%nat.
Definition ch_prompt : list (list N) := [ch_answer; ch_key_a; ch_ds_a; ch_key_root].
Lemma root_last_refuted : ~ (forall dbg n ty b0 q0 tr b proof ttl pos, builder_new n ty = Ok (b0, q0) -> Calls dbg b0 tr b ->
  Forall (fun c => is_bytes (fst c)) tr -> finish_proof b = Ok (proof, ttl) -> Forall (fun c => is_ok (snd c) = true) tr -> Answering tr pos ->
  Signer (negb dbg) tr [46] -> exists p q, last pos 0%nat = p /\ nth_error (q0 :: handed tr) p = Some q /\ Query [46] 48 (qb_deref q)).
Proof.
  intros H. destruct (exec_run ch_late) as [C B]; [vm_compute; reflexivity | vm_compute; reflexivity |].
  destruct (finished ch_late) as [[proof ttl] | | |] eqn:F; [| exfalso; vm_compute in F; discriminate F ..].
  destruct (H false [120; 46] 1 builder_init ch_query _ _ _ _ ch_late_pos ch_builder C B F) as (p & q & L & E & Q).
  - apply forallb_ok. vm_compute. reflexivity.
  - apply answering_of. vm_compute. reflexivity.
  - exists ch_ds_a. destruct (items_of false ch_ds_a) as [its |] eqn:I; [| exfalso; vm_compute in I; discriminate I].
    assert (R := items_response false ch_ds_a its (proj2 (is_bytes_ok ch_ds_a) eq_refl) I). vm_compute in I. injection I as <-.
    eexists. eexists. split; [vm_compute; right; left; reflexivity |]. split; [exact R |]. split; [right; left; reflexivity | left; reflexivity].
  - vm_compute in L. subst p.
    destruct (initial_query [46] 48 builder_init (match build_query [46] 48 with Ok q => q | _ => new_zeroed 0 end) eq_refl) as (ls' & L' & E'); [lia | vm_compute; reflexivity |].
    assert (X := query_unique _ _ _ _ Q (ex_intro _ ls' (conj L' E'))). vm_compute in E. injection E as <-. vm_compute in X. discriminate X.
Qed.
(** The owners of the records of the finished proof. *)
Definition ch_names (ms : list (list N)) : option (list (list N)) :=
  match finished ms with Ok (proof, _) => match parse_rr_stream false proof with Ok l => Some (map rr_name l) | _ => None end | _ => None end.
