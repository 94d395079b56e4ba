(** Properties C60 and C61: exactly which record lists [verify_rr_stream] accepts, and with which result. The
    specification is AcceptSpec.v. In a debug build the same lists are accepted or it panics (C26). *)
From Verif Require Import Base NameM WireM RRM SerM ValM NameSpec RecSpec ValSpec AcceptSpec AcceptP4 ValW OrderW AcceptW.
From Coq Require Import String.
Local Open Scope N_scope.

(** What is accepted has trusted keys in every zone reached, no bad signature in any of them, an
    answer, no zone delegating itself, and a moment at which all signatures are valid. *)
Theorem C60_necessary : forall e inp fuel v, Forall Held inp -> (forall s, In (RR_RRSig s) inp -> ~ EmptyMaxLabels inp s) ->
  verify_rr_stream e false fuel inp = Ok v -> Acceptable e inp.
Proof. exact verdict_necessary. Qed.
Print Assumptions C60_necessary.
(** For instance not a changed record. *)
Example C60_necessary_example : Forall Held o_forged /\ ~ Acceptable echo_env o_forged /\ echo o_forged = Err Invalid /\ exists v, echo o_plain = Ok v.
Proof.
  split; [exact o_forged_held |]. split; [exact o_forged_unacceptable |]. split; [vm_compute; reflexivity |]. eexists. vm_compute. reflexivity.
Qed.

(** Conversely all of that is accepted, if wildcard answers are denied, given that at most two sets of
    NSEC3 parameters occur ... *)
Theorem C60_sufficient_partial : forall e inp, Forall Held inp -> SortsNeeds e -> (forall s, In (RR_RRSig s) inp -> ~ EmptyMaxLabels inp s) ->
  TwoParams e inp -> Acceptable e inp -> Denials e inp -> exists fuel v, verify_rr_stream e false fuel inp = Ok v.
Proof. exact verdict_sufficient. Qed.
Print Assumptions C60_sufficient_partial.
Example C60_sufficient_example : Forall Held o_wild /\ SortsNeeds echo_env /\ TwoParams echo_env o_wild /\ Acceptable echo_env o_wild /\ Denials echo_env o_wild.
Proof.
  assert (E : exists v, verify_rr_stream echo_env false 10 o_wild = Ok v) by (eexists; vm_compute; reflexivity). destruct E as (v & E).
  split; [exact o_wild_held |]. split; [exact echo_sorts |]. split; [exact o_wild_two |].
  split; [exact (accepted_acceptable _ _ o_wild_held o_wild_max _ _ E) | exact (accepted_denials _ _ o_wild_held o_wild_max _ _ echo_sorts (o_wild_one _) E)].
Qed.
(** ... but not without that limit: only the first two sets of parameters are tried. *)
Theorem C60_two_params_refuted : ~ (forall e inp, Forall Held inp -> SortsNeeds e -> (forall s, In (RR_RRSig s) inp -> ~ EmptyMaxLabels inp s) ->
  OneZone e inp -> Acceptable e inp -> Denials e inp -> exists fuel v, verify_rr_stream e false fuel inp = Ok v).
Proof. exact two_params_refuted. Qed.
Print Assumptions C60_two_params_refuted.
(** The verdict then depends on the order of the NSEC3 records. *)
Example C60_two_params_example : verify_rr_stream n3_env false 10 w_three_params = Err Invalid /\
  exists v, verify_rr_stream n3_env false 10 w_three_params' = Ok v /\ vr_rrs v = [w_a "x.a."].
Proof. split; [exact three_params_rejected | exact three_params_accepted]. Qed.

(** Together, if also no two zones answer for the same name from a wildcard. *)
Theorem C60_exact_partial : forall e inp, Forall Held inp -> SortsNeeds e -> (forall s, In (RR_RRSig s) inp -> ~ EmptyMaxLabels inp s) ->
  TwoParams e inp -> OneZone e inp ->
  ((exists fuel v, verify_rr_stream e false fuel inp = Ok v) <-> Acceptable e inp /\ Denials e inp).
Proof. exact accepted_iff. Qed.
Print Assumptions C60_exact_partial.
(** A wildcard answer without and with its NSEC record. *)
Example C60_exact_example : (Acceptable echo_env o_undenied /\ echo o_undenied = Err Invalid) /\
  OneZone echo_env o_wild /\ exists v, echo o_wild = Ok v /\ vr_rrs v = [w_a "x.a."].
Proof.
  split; [split; [exact o_undenied_acceptable | vm_compute; reflexivity] |]. split; [apply o_wild_one |]. eexists. split; vm_compute; reflexivity.
Qed.
(** Otherwise the denial by one zone may be counted for the other. *)
Theorem C60_one_zone_refuted : ~ (forall e inp fuel v, Forall Held inp -> SortsNeeds e -> (forall s, In (RR_RRSig s) inp -> ~ EmptyMaxLabels inp s) ->
  TwoParams e inp -> verify_rr_stream e false fuel inp = Ok v -> Denials e inp).
Proof. exact one_zone_refuted. Qed.
Print Assumptions C60_one_zone_refuted.
Example C60_one_zone_example : Forall Held w_two_zones /\ exists v, run w_two_zones = Ok v /\ vr_rrs v = [w_a "x.a.b."].
Proof. split; [exact two_zones_held | exact two_zones_ok]. Qed.

(** The result: all proven records but NSEC and NSEC3, and the window and TTL of all signatures used. *)
Theorem C60_result : forall e inp fuel v, Forall Held inp -> verify_rr_stream e false fuel inp = Ok v ->
  (forall r, In r (vr_rrs v) <-> Proven e inp r /\ rr_ty r <> 47 /\ rr_ty r <> 50) /\
  exists used, (forall s, In s used <-> Used e inp s) /\
    is_max (vr_valid_from v) (map (fun s => resolve_time (rs_inception s)) used) /\
    is_min (vr_expires v) (map (fun s => resolve_time (rs_expiration s)) used) /\ is_min (vr_max_cache_ttl v) (map rs_orig_ttl used).
Proof. exact verdict_result. Qed.
Print Assumptions C60_result.
Example C60_result_example : exists v, echo o_wild = Ok v /\ vr_rrs v = [w_a "x.a."] /\ vr_valid_from v = 1000000000 /\ vr_expires v = 2000000000 /\ vr_max_cache_ttl v = 3600.
Proof. eexists. split; [vm_compute; reflexivity |]. split; [reflexivity |]. split; [reflexivity |]. split; reflexivity. Qed.

(** C61. A wildcard answer with a denial according to the RFCs is accepted, if the denying record is not
    the last one of the zone ... *)
Theorem C61_denial_partial : forall e inp, Forall Held inp -> SortsNeeds e -> (forall s, In (RR_RRSig s) inp -> ~ EmptyMaxLabels inp s) ->
  TwoParams e inp -> Acceptable e inp -> InnerDenials e inp -> exists fuel v, verify_rr_stream e false fuel inp = Ok v.
Proof. exact inner_accepted. Qed.
Print Assumptions C61_denial_partial.
Example C61_example : Forall Held o_wild /\ InnerDenials echo_env o_wild /\ exists v, echo o_wild = Ok v /\ vr_rrs v = [w_a "x.a."].
Proof. split; [exact o_wild_held |]. split; [exact o_wild_inner |]. eexists. split; vm_compute; reflexivity. Qed.
(** ... but not if it is: neither the last NSEC ... *)
Theorem C61_last_nsec_refuted : ~ (forall e inp, Forall Held inp -> SortsNeeds e -> (forall s, In (RR_RRSig s) inp -> ~ EmptyMaxLabels inp s) ->
  TwoParams e inp -> (forall n, ~ In (RR_NSec3 n) inp) -> Acceptable e inp -> RfcDenials e inp ->
  exists fuel v, verify_rr_stream e false fuel inp = Ok v).
Proof. exact last_nsec_refuted. Qed.
Print Assumptions C61_last_nsec_refuted.
Example C61_last_nsec_example : run w_last_nsec = Err Invalid.
Proof. exact last_nsec_rejected. Qed.
(** ... nor the last NSEC3. *)
Theorem C61_last_nsec3_refuted : ~ (forall e inp, Forall Held inp -> SortsNeeds e -> (forall s, In (RR_RRSig s) inp -> ~ EmptyMaxLabels inp s) ->
  TwoParams e inp -> (forall n, ~ In (RR_NSec n) inp) -> Acceptable e inp -> RfcDenials e inp ->
  exists fuel v, verify_rr_stream e false fuel inp = Ok v).
Proof. exact last_nsec3_refuted. Qed.
Print Assumptions C61_last_nsec3_refuted.
Example C61_last_nsec3_example : verify_rr_stream n3_env false 10 w_last_nsec3 = Err Invalid.
Proof. exact last_nsec3_rejected. Qed.
