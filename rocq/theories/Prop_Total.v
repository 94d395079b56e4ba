(** Properties C25, C26: termination and panics of [verify_rr_stream]. [Loop] is the outcome when [fuel]
    zones were visited without an end. *)
From Verif Require Import Base NameM WireM RRM SerM ValM NameSpec RecSpec CodecSpec ValSpec ValP3 ValP4 ValP5 HeldP ValW ValW2.
From Coq Require Import String PeanoNat.
Local Open Scope N_scope.

(** C25. The verdict does not depend on the fuel ... *)
Theorem C25_fuel_irrelevant : forall e dbg inp f f', verify_rr_stream e dbg f inp <> Loop -> (f <= f')%nat ->
  verify_rr_stream e dbg f' inp = verify_rr_stream e dbg f inp.
Proof. exact verify_mono. Qed.
Print Assumptions C25_fuel_irrelevant.
(** ... and there is one, after a bounded number of zones, if no DS RRset is signed by the very zone it
    delegates, and some DS RRset is signed by the root. *)
Theorem C25_terminates_partial : forall e dbg inp, Forall Held inp ->
  (forall s, In (RR_RRSig s) inp /\ rs_ty s = 43 -> rs_name s <> rs_key_name s) ->
  forall s0 n, In (RR_RRSig s0) inp /\ rs_ty s0 = 43 -> rs_key_name s0 = [46] -> supported_alg (rs_alg s0) ->
  (S (List.length (rrsigs inp)) ^ 255 <= n)%nat -> verify_rr_stream e dbg (S n) inp <> Loop.
Proof. exact verify_terminates. Qed.
Print Assumptions C25_terminates_partial.
(** Missing: every other input. The root DNSKEY RRset and its RRSIG, which anyone can fetch, suffice. *)
Theorem C25_terminates_refuted : ~ (forall e inp, Forall Held inp -> exists fuel, verify_rr_stream e false fuel inp <> Loop).
Proof. exact termination_refuted. Qed.
Print Assumptions C25_terminates_refuted.
Theorem C25_self_signed_ds_refuted : ~ (forall e inp s0, Forall Held inp -> In (RR_RRSig s0) inp -> rs_ty s0 = 43 ->
  rs_key_name s0 = [46] -> supported_alg (rs_alg s0) -> exists fuel, verify_rr_stream e false fuel inp <> Loop).
Proof. exact termination_self_refuted. Qed.
Print Assumptions C25_self_signed_ds_refuted.
(** The hypotheses hold of an ordinary stream. *)
Example C25_example : Forall Held w_plain /\
  (forall s, In (RR_RRSig s) w_plain /\ rs_ty s = 43 -> rs_name s <> rs_key_name s) /\
  (In (RR_RRSig (w_rrsig "a." 43 1 ".")) w_plain /\ run w_plain <> Loop) /\ run w_root = Loop.
Proof.
  split; [exact plain_held_w|]. split; [|split; [split; [cbn; auto 20|vm_compute; discriminate]|vm_compute; reflexivity]].
  intros s [H T]. cbn in H. repeat (destruct H as [H|H]; [try discriminate H; injection H as <-; cbn in *; discriminate|]). destruct H.
Qed.

(** C26. *)
Theorem C26_release : forall e fuel w inp dbg', is_bytes w -> parse_rr_stream dbg' w = Ok inp ->
  verify_rr_stream e false fuel inp <> Panic.
Proof. exact release_no_panic. Qed.
Print Assumptions C26_release.
(** In debug builds, only when a trusted zone made an RRSIG with 255 labels over no records. *)
Theorem C26_debug_partial : forall e dbg dbg' fuel w inp, is_bytes w -> parse_rr_stream dbg' w = Ok inp ->
  verify_rr_stream e dbg fuel inp = Panic ->
  dbg = true /\ exists z s, EmptyMaxLabels inp s /\ TrustedZone e inp (fun _ => True) z /\ SignedByZone e inp (fun _ => True) z s.
Proof. exact parsed_verify_panic. Qed.
Print Assumptions C26_debug_partial.
Theorem C26_debug_refuted : ~ (forall e dbg fuel w inp, is_bytes w -> parse_rr_stream dbg w = Ok inp ->
  verify_rr_stream e dbg fuel inp <> Panic).
Proof. exact debug_panic_refuted. Qed.
Print Assumptions C26_debug_refuted.
Example C26_example : (is_bytes labels255_wire /\ parse_rr_stream true labels255_wire = Ok w_labels255) /\
  verify_rr_stream toy_env true 5 w_labels255 = Panic /\ verify_rr_stream toy_env false 5 w_labels255 <> Panic /\
  parse_rr_stream true (flat_map (fun r => write_rr r 60) w_plain) = Ok w_plain /\
  exists v, verify_rr_stream toy_env true 10 w_plain = Ok v /\ vr_rrs v = [w_a "x.a."].
Proof.
  split; [exact labels255_parsed|]. split; [vm_compute; reflexivity|]. split; [vm_compute; discriminate|].
  split; [vm_compute; reflexivity|]. eexists. split; vm_compute; reflexivity.
Qed.
