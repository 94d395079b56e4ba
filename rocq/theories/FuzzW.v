(** Witnesses about the fuzz targets. *)
From Verif Require Import Base NameM WireM RRM SerM RecSpec RecP2 RecW ValSpec ValM QueryM QuerySpec ValW ValW2 QueryW FuzzM.
From Coq Require Import String.
Local Open Scope N_scope.

Lemma fuzz_response_refuted : forall dbg, ~ (forall m, is_bytes m -> fuzz_response dbg m <> Panic).
Proof. intros dbg H. apply (H m_bad_nsec); [apply is_bytes_ok; vm_compute; reflexivity|]. destruct dbg; vm_compute; reflexivity. Qed.
Lemma fuzz_builder_refuted : forall dbg, ~ (forall s, is_bytes s -> exists fuel, fuzz_proof_builder dbg fuel s <> Panic /\ fuzz_proof_builder dbg fuel s <> Loop).
Proof.
  intros dbg H. destruct (H (frame m_bad_nsec)) as ([|f] & A & B); [apply is_bytes_ok; vm_compute; reflexivity|apply B; vm_compute; reflexivity|].
  apply A. destruct dbg; vm_compute; reflexivity.
Qed.
Lemma validate_panic_refuted : forall dbg, ~ (forall e fuel data, is_bytes data -> parse_stream_validate e dbg fuel data <> Panic).
Proof. intros dbg H. apply (H toy_env O nsec_overlong); [apply is_bytes_ok; vm_compute; reflexivity|]. destruct dbg; vm_compute; reflexivity. Qed.

(** A library which accepts no signature, and a root zone "signed" with the byte 1. *)
Definition strict_env : env :=
  {| e_sha1 := fun _ => []; e_sha256 := fun _ => root_digest_20326; e_sig := fun _ _ _ _ => false; e_sort_needs := fun l => l |}.
Definition one_signed (r : RR) : RR :=
  match r with
  | RR_RRSig s => RR_RRSig {| rs_name := rs_name s; rs_ty := rs_ty s; rs_alg := rs_alg s; rs_labels := rs_labels s; rs_orig_ttl := rs_orig_ttl s;
      rs_expiration := rs_expiration s; rs_inception := rs_inception s; rs_key_tag := rs_key_tag s; rs_key_name := rs_key_name s; rs_signature := [1] |}
  | r => r
  end.
Definition fuzz_root : list N := flat_map (fun r => write_rr r 0) (map one_signed w_root).
Lemma fuzz_root_loops fuel : verify_rr_stream (fuzzing strict_env) false fuel (map one_signed w_root) = Loop.
Proof.
  unfold verify_rr_stream. destruct fuel as [|fuel]; [reflexivity|]. cbn [zone_loop].
  change (bytes_eqb (v_zone vinit) root_name || negb (is_nil (v_pending vinit))) with true. cbv iota.
  destruct (zone_step (fuzzing strict_env) false (map one_signed w_root) vinit) as [st| | |] eqn:E; try (vm_compute in E; discriminate).
  cbn [obind]. rewrite (fixed_point_loops (fuzzing strict_env) false (map one_signed w_root) st); [reflexivity| |].
  - vm_compute in E. injection E as <-. vm_compute. reflexivity.
  - vm_compute in E. injection E as <-. left. reflexivity.
Qed.
Lemma validate_ends_refuted : ~ (forall e data, is_bytes data -> exists fuel, parse_stream_validate e false fuel data <> Loop).
Proof.
  intros H. destruct (H strict_env fuzz_root) as (fuel & F); [apply is_bytes_ok; vm_compute; reflexivity|]. apply F. unfold parse_stream_validate.
  assert (P : parse_rr_stream false fuzz_root = Ok (map one_signed w_root)) by (vm_compute; reflexivity). rewrite P, fuzz_root_loops. reflexivity.
Qed.
(** The fuzz build accepts what a build for use rejects. *)
Lemma fuzzing_refuted : ~ (forall e dbg fuel inp, verify_rr_stream (fuzzing e) dbg fuel inp = verify_rr_stream e dbg fuel inp).
Proof. intros H. specialize (H strict_env false 10%nat (map one_signed w_plain)). vm_compute in H. discriminate H. Qed.
