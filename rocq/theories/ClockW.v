(** Witnesses for C73: the stream [w_plain] with other times in its signatures. *)
From Verif Require Import Base NameM WireM RRM SerM ValM NameSpec RecSpec RecP2 ValSpec ValW TimeSpec ClockSpec ClockP.
From Coq Require Import String Lia.
Local Open Scope N_scope.

Definition c_set (from to : N) (r : RR) : RR :=
  match r with
  | RR_RRSig s => RR_RRSig {| rs_name := rs_name s; rs_ty := rs_ty s; rs_alg := rs_alg s; rs_labels := rs_labels s; rs_orig_ttl := rs_orig_ttl s;
      rs_expiration := to; rs_inception := from; rs_key_tag := rs_key_tag s; rs_key_name := rs_key_name s; rs_signature := rs_signature s |}
  | r => r
  end.
Definition c_plain (from to : N) : list RR := map (c_set from to) w_plain.

Lemma c_held from to : from < 2 ^ 32 -> to < 2 ^ 32 -> Forall Held (c_plain from to).
Proof.
  intros F T. unfold c_plain. apply Forall_map. eapply Forall_impl; [|exact plain_held_w].
  intros r. destruct r; auto. unfold Held. cbn. intros H. repeat match goal with H : _ /\ _ |- _ => destruct H end.
  unfold is_u32. change 4294967296 with (2 ^ 32). repeat split; auto.
Qed.
Lemma c_times from to s : In (RR_RRSig s) (c_plain from to) -> rs_inception s = from /\ rs_expiration s = to.
Proof. cbn. intros H. repeat (destruct H as [H|H]; [try discriminate H; injection H as <-; auto|]). destruct H. Qed.
Lemma c_signed from to now r : Authentic toy_env (c_plain from to) (Current now) r ->
  serial_le from (now mod 2 ^ 32) /\ serial_le (now mod 2 ^ 32) to.
Proof. intros (z & s & _ & (I & [A B] & _) & _). apply c_times in I as [E F]. rewrite E in A. rewrite F in B. auto. Qed.

(** A period of 95 years: in 2080 the signature is in the future for RFC 4034. *)
Lemma span_refuted : ~ (forall e dbg fuel inp v now, Forall Held inp -> verify_rr_stream e dbg fuel inp = Ok v ->
  vr_valid_from v <= now <= vr_expires v -> (now < 2 ^ 32 - 1 \/ vr_valid_from v < now) ->
  forall r, In r (vr_rrs v) -> Authentic e inp (Current now) r).
Proof.
  intros H. specialize (H toy_env false 10%nat (c_plain 1000000000 4000000000) {| vr_rrs := [w_a "x.a."]; vr_valid_from := 1000000000; vr_expires := 4000000000; vr_max_cache_ttl := 3600 |} 3500000000
    (c_held 1000000000 4000000000 eq_refl eq_refl) ltac:(vm_compute; reflexivity)). cbn [vr_valid_from vr_expires vr_rrs] in H.
  destruct (c_signed _ _ _ _ (H ltac:(lia) ltac:(left; reflexivity) _ (or_introl eq_refl))) as [[A|A] _]; vm_compute in A; [discriminate|].
  destruct A as [[_ A]|[A _]]; discriminate.
Qed.
(** 2106: the window opens one second before the signature does. *)
Lemma second_refuted : ~ (forall e dbg fuel inp v now, Forall Held inp -> verify_rr_stream e dbg fuel inp = Ok v ->
  (forall s, In (RR_RRSig s) inp -> Expressible s) -> vr_valid_from v <= now <= vr_expires v ->
  forall r, In r (vr_rrs v) -> Authentic e inp (Current now) r).
Proof.
  intros H. specialize (H toy_env false 10%nat (c_plain 5 1000) {| vr_rrs := [w_a "x.a."]; vr_valid_from := 4294967300; vr_expires := 4294968295; vr_max_cache_ttl := 3600 |} 4294967300
    (c_held 5 1000 eq_refl eq_refl) ltac:(vm_compute; reflexivity)). cbn [vr_valid_from vr_expires vr_rrs] in H.
  assert (X : forall s, In (RR_RRSig s) (c_plain 5 1000) -> Expressible s).
  { intros s I. apply c_times in I as [E F]. unfold Expressible. rewrite E, F. right. left. split; reflexivity. }
  destruct (c_signed _ _ _ _ (H X ltac:(lia) _ (or_introl eq_refl))) as [[A|A] _]; vm_compute in A; [discriminate|].
  destruct A as [[A _]|[_ A]]; discriminate.
Qed.

(** Both sides of 2106 with the times of one signature on each side. *)
Lemma clock_example : exists v, Forall Held (c_plain 4294967000 1000) /\ verify_rr_stream toy_env false 10 (c_plain 4294967000 1000) = Ok v /\
  (forall s, In (RR_RRSig s) (c_plain 4294967000 1000) -> Expressible s) /\ In (w_a "x.a.") (vr_rrs v) /\
  vr_valid_from v <= 2 ^ 32 + 300 <= vr_expires v /\ vr_valid_from v < 2 ^ 32 + 300.
Proof.
  eexists. split; [apply c_held; reflexivity|]. split; [vm_compute; reflexivity|].
  split; [intros s I; apply c_times in I as [E F]; unfold Expressible; rewrite E, F; right; right; split; reflexivity|].
  cbn [vr_rrs vr_valid_from vr_expires]. split; [left; reflexivity|]. change (2 ^ 32) with 4294967296. lia.
Qed.
