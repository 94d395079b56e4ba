(** Properties C25 and C31, sharpened by the characterisation of C60. *)
From Verif Require Import Base NameM WireM RRM SerM ValM NameSpec RecSpec ValSpec OrderSpec AcceptSpec AcceptP5 ValW OrderW AcceptW AcceptW2.
From Coq Require Import String Permutation.
Local Open Scope N_scope.

(** C25. Whatever else is wrong with the input, validation ends if the root delegates some zone and no
    zone reached delegates itself. *)
Theorem C25_ends_partial : forall e inp, Forall Held inp ->
  (exists s, GoodSig e inp [46] s /\ rs_ty s = 43) ->
  (forall z s, Visited e inp z -> GoodSig e inp z s -> rs_ty s = 43 -> rs_name s <> z) ->
  exists fuel, verify_rr_stream e false fuel inp <> Loop.
Proof. exact ends_if. Qed.
Print Assumptions C25_ends_partial.
(** If all zones reached are in order, it ends only then. *)
Theorem C25_ends_exactly_partial : forall e inp, Forall Held inp -> (forall s, In (RR_RRSig s) inp -> ~ EmptyMaxLabels inp s) ->
  InOrder e inp ->
  ((exists fuel, verify_rr_stream e false fuel inp <> Loop) <->
   (exists s, GoodSig e inp [46] s /\ rs_ty s = 43) /\
   (forall z s, Visited e inp z -> GoodSig e inp z s -> rs_ty s = 43 -> rs_name s <> z)).
Proof. exact ends_exactly. Qed.
Print Assumptions C25_ends_exactly_partial.
(** An answer below a delegation; the root alone. *)
Example C25_ends_example :
  (Forall Held o_wild /\ (forall s, In (RR_RRSig s) o_wild -> ~ EmptyMaxLabels o_wild s) /\ InOrder echo_env o_wild /\ echo o_wild <> Loop) /\
  (Forall Held w_root /\ InOrder toy_env w_root /\ (forall s, ~ GoodSig toy_env w_root [46] s) /\ run w_root = Loop).
Proof.
  split; [split; [exact o_wild_held |]; split; [exact o_wild_max |]; split; [exact o_wild_in_order | vm_compute; discriminate] |].
  split; [exact w_root_held |]. split; [exact w_root_in_order |]. split; [intros s [G _]; exact (w_root_nosig _ _ G) | vm_compute; reflexivity].
Qed.

(** C31. The order does not matter to what is accepted, and with which result, if the DNSKEYs of each
    zone and the RRSIGs over them keep theirs. *)
Theorem C31_accepted_order_partial : forall e inp inp', Forall Held inp -> SortsNeeds e -> Permutation inp inp' ->
  (forall z, keys_at inp z = keys_at inp' z /\ sigs_over inp z 48 = sigs_over inp' z 48) ->
  (forall s, In (RR_RRSig s) inp -> ~ EmptyMaxLabels inp s) -> TwoParams e inp -> OneZone e inp ->
  forall fuel v, verify_rr_stream e false fuel inp = Ok v ->
  exists fuel' v', verify_rr_stream e false fuel' inp' = Ok v' /\ SameResult v v'.
Proof. exact accept_same_order. Qed.
Print Assumptions C31_accepted_order_partial.
(** No order matters if the keys of each zone differ in tag or algorithm and are signed once. *)
Theorem C31_any_order_partial : forall e inp inp', Forall Held inp -> SortsNeeds e -> Permutation inp inp' ->
  OneKey inp -> OneKeySig inp ->
  (forall s, In (RR_RRSig s) inp -> ~ EmptyMaxLabels inp s) -> TwoParams e inp -> OneZone e inp ->
  forall fuel v, verify_rr_stream e false fuel inp = Ok v ->
  exists fuel' v', verify_rr_stream e false fuel' inp' = Ok v' /\ SameResult v v'.
Proof. exact accept_any_order. Qed.
Print Assumptions C31_any_order_partial.
(** A wildcard answer turned around. *)
Example C31_any_order_example :
  (Forall Held o_wild /\ SortsNeeds echo_env /\ Permutation o_wild (rev o_wild) /\ OneKey o_wild /\ OneKeySig o_wild /\
   (forall s, In (RR_RRSig s) o_wild -> ~ EmptyMaxLabels o_wild s) /\ TwoParams echo_env o_wild /\ OneZone echo_env o_wild) /\
  (exists v, echo o_wild = Ok v /\ vr_rrs v = [w_a "x.a."]) /\ (exists v, echo (rev o_wild) = Ok v /\ vr_rrs v = [w_a "x.a."]).
Proof.
  split; [split; [exact o_wild_held |]; split; [exact echo_sorts |]; split; [apply Permutation_rev |]; split; [exact o_wild_one_key |]; split; [exact o_wild_one_sig |];
    split; [exact o_wild_max |]; split; [exact o_wild_two | exact (o_wild_one echo_env)] |].
  split; eexists; split; vm_compute; reflexivity.
Qed.
