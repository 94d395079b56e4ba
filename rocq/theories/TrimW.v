(** Witnesses for Prop_Trim. *)
From Verif Require Import Base BaseP NameM WireM RRM SerM ValM NameSpec RecSpec CodecSpec ValSpec ValP ValP2 ValP3 ValW ValW2 OrderSpec OrderW AcceptSpec AcceptP AcceptP2 AcceptP3 AcceptP4 AcceptW AcceptP5 MergeSpec MergeP MergeW TrimSpec TrimP.
From Coq Require Import String.
Local Open Scope N_scope.

Definition only (n : list N) (ty : N) : list N -> N -> bool := fun m t => bytes_eqb m n && (t =? ty).
Lemma only_off n ty t : t <> ty -> forall m, only n ty m t = false.
Proof. intros H m. unfold only. apply N.eqb_neq in H. rewrite H. apply andb_false_r. Qed.

(** x.a. and y.a. in one proof, the first to be left out. *)
Definition t_xy : list RR := o_zones ++ [w_a "x.a."; o_sig "x.a." 1 2 "a." [w_a "x.a."]; w_a "y.a."; o_sig "y.a." 1 2 "a." [w_a "y.a."]].
Lemma t_xy_held : Forall Held t_xy.
Proof. unfold t_xy. o_held_all. Qed.
Lemma t_xy_hyps : TwoParams echo_env t_xy /\ OneZone echo_env t_xy /\ (forall s, In (RR_RRSig s) t_xy -> ~ EmptyMaxLabels t_xy s).
Proof.
  split; [apply no_nsec3; vm_compute; reflexivity |]. split; [apply exact_ok; [exact t_xy_held | vm_compute; reflexivity] | apply not_max; vm_compute; reflexivity].
Qed.
Lemma t_xy_ok : (exists v, echo t_xy = Ok v /\ vr_rrs v = [w_a "x.a."; w_a "y.a."]) /\
  (exists v, echo (trimmed (only (bs "x.a.") 1) t_xy) = Ok v /\ vr_rrs v = [w_a "y.a."]).
Proof. split; eexists; split; vm_compute; reflexivity. Qed.

(** The NSEC record which o_wild needs. *)
Lemma denial_refuted : ~ (forall e inp D fuel v, Forall Held inp -> SortsNeeds e -> TwoParams e inp -> OneZone e inp -> (forall s, In (RR_RRSig s) inp -> ~ EmptyMaxLabels inp s) ->
  (forall n, D n 48 = false) -> (forall n, D n 43 = false) -> (forall n, D n 50 = false) ->
  verify_rr_stream e false fuel inp = Ok v -> (exists r, In r (vr_rrs v) /\ D (rr_name r) (rr_ty r) = false) ->
  exists fuel' v', verify_rr_stream e false fuel' (trimmed D inp) = Ok v').
Proof.
  intros H. assert (E : exists v, verify_rr_stream echo_env false 10 o_wild = Ok v /\ vr_rrs v = [w_a "x.a."]) by (eexists; split; vm_compute; reflexivity).
  destruct E as (v & E & R). apply (turned_down echo_env (trimmed (only (bs "c.a.") 47) o_wild) 10); [vm_compute; reflexivity |].
  apply (H echo_env o_wild (only (bs "c.a.") 47) 10%nat v o_wild_held echo_sorts); [| | | | | | exact E |].
  - apply no_nsec3; vm_compute; reflexivity.
  - apply (one_signer_ok o_wild (bs "a.")); [exact o_wild_held | vm_compute; reflexivity].
  - apply not_max; vm_compute; reflexivity.
  - apply only_off; discriminate.
  - apply only_off; discriminate.
  - apply only_off; discriminate.
  - exists (w_a "x.a."). rewrite R. split; [left; reflexivity | vm_compute; reflexivity].
Qed.

(** The delegation to the zone a., with a proven record of the root kept. *)
Definition t_root : list RR := o_plain ++ [w_a "r."; o_sig "r." 1 1 "." [w_a "r."]].
Lemma t_root_held : Forall Held t_root.
Proof. unfold t_root, o_plain. rewrite <- app_assoc. cbn [app]. o_held_all. Qed.
Lemma no_delegation l s : forallb (fun t => negb (rs_ty t =? 43)) (sigs l) = true -> In s (sigs l) -> rs_ty s = 43 -> False.
Proof. rewrite forallb_forall. intros H I T. apply H in I. rewrite T in I. discriminate. Qed.
Lemma delegation_refuted : ~ (forall e inp D fuel v, Forall Held inp -> SortsNeeds e -> TwoParams e inp -> OneZone e inp -> (forall s, In (RR_RRSig s) inp -> ~ EmptyMaxLabels inp s) ->
  (forall n, D n 48 = false) -> (forall n, D n 47 = false) -> (forall n, D n 50 = false) ->
  verify_rr_stream e false fuel inp = Ok v -> (exists r, Proven e (trimmed D inp) r) ->
  exists fuel' v', verify_rr_stream e false fuel' (trimmed D inp) = Ok v').
Proof.
  intros H. assert (E : exists v, verify_rr_stream echo_env false 10 t_root = Ok v) by (eexists; vm_compute; reflexivity).
  destruct E as (v & E).
  assert (N : ~ exists fuel' v', verify_rr_stream echo_env false fuel' (trimmed (only (bs "a.") 43) t_root) = Ok v').
  { intros (fuel' & v' & X). apply accepted_acceptable in X; [| apply (held_trim _ _ t_root_held) | apply not_max; vm_compute; reflexivity].
    destruct (ac_root _ _ X) as (s & ((I & _) & _) & T). apply in_sigs in I. revert I T. apply no_delegation. vm_compute. reflexivity. }
  apply N. apply (H echo_env t_root (only (bs "a.") 43) 10%nat v t_root_held echo_sorts); [| | | | | | exact E |].
  - apply no_nsec3; vm_compute; reflexivity.
  - apply exact_ok; [exact t_root_held | vm_compute; reflexivity].
  - apply not_max; vm_compute; reflexivity.
  - apply only_off; discriminate.
  - apply only_off; discriminate.
  - apply only_off; discriminate.
  - exists (w_a "r."), (bs "."), (o_rrsig "r." 1 1 "." [w_a "r."]). split; [exact (Vi_root _ _) |]. split; [| split; [discriminate |]].
    + apply good_ok; [apply (held_trim _ _ t_root_held) |]. split; [| vm_compute; reflexivity].
      apply in_zone_rrsigs. split; [| split; [reflexivity | discriminate]]. vm_compute. do 7 right. left. reflexivity.
    + vm_compute. left. reflexivity.
Qed.

(** Of two zones one may go, delegation and all. *)
Definition t_two : list RR :=
  o_plain ++ [w_ds "b."; o_sig "b." 43 1 "." [w_ds "b."]; w_key "b."; o_sig "b." 48 1 "b." [w_key "b."]; w_a "x.b."; o_sig "x.b." 1 2 "b." [w_a "x.b."]].
Definition t_drop : list N -> N -> bool := fun n t => (bytes_eqb n (bs "b.") && (t =? 43)) || (bytes_eqb n (bs "x.b.") && (t =? 1)).
Lemma t_two_ok : (exists v, echo t_two = Ok v /\ vr_rrs v = [w_a "x.b."; w_a "x.a."]) /\
  (exists v, echo (trimmed t_drop t_two) = Ok v /\ vr_rrs v = [w_a "x.a."]).
Proof. split; eexists; split; vm_compute; reflexivity. Qed.
Lemma t_two_held : Forall Held t_two.
Proof. unfold t_two, o_plain. rewrite <- app_assoc. cbn [app]. o_held_all. Qed.
Lemma t_two_hyps : Forall Held t_two /\ TwoParams echo_env t_two /\ (forall s, In (RR_RRSig s) t_two -> ~ EmptyMaxLabels t_two s) /\ (forall n, t_drop n 48 = false) /\
  (exists r, Proven echo_env (trimmed t_drop t_two) r) /\ (exists s, GoodSig echo_env (trimmed t_drop t_two) [46] s /\ rs_ty s = 43) /\ Denials echo_env (trimmed t_drop t_two).
Proof.
  pose proof (held_trim _ t_drop t_two_held) as Hh. destruct t_two_ok as (_ & v & V & _). unfold echo in V.
  assert (HE : forall s, In (RR_RRSig s) (trimmed t_drop t_two) -> ~ EmptyMaxLabels (trimmed t_drop t_two) s) by (apply not_max; vm_compute; reflexivity).
  pose proof (accepted_acceptable _ _ Hh HE _ _ V) as A.
  split; [exact t_two_held |]. split; [apply no_nsec3; vm_compute; reflexivity |]. split; [apply not_max; vm_compute; reflexivity |].
  split; [intros n; unfold t_drop; cbn; rewrite !andb_false_r; reflexivity |]. split; [exact (ac_some _ _ A) |]. split; [exact (ac_root _ _ A) |].
  refine (accepted_denials _ _ Hh HE _ _ echo_sorts _ V). apply exact_ok; [exact Hh | vm_compute; reflexivity].
Qed.
