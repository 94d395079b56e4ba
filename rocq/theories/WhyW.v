(** Witnesses for Prop_Why. *)
From Verif Require Import Base BaseP NameM WireM RRM SerM ValM NameSpec RecSpec ValSpec ValP ValP2 ValP3 ValP4 ValW ValW2 OrderW AcceptSpec AcceptP AcceptW WhySpec WhyP.
From Coq Require Import String Permutation.
Local Open Scope N_scope.

(** A delegation with a digest of a type not implemented, and one to a zone without keys. *)
Definition y_ds (z : string) : RR :=
  RR_DS {| ds_name := bs z; ds_key_tag := 20326; ds_alg := 8; ds_digest_type := 3; ds_digest := root_digest_20326 |}.
Definition y_root : list RR := [w_key "."; o_sig "." 48 0 "." [w_key "."]].
Definition y_lacking : list RR := [y_ds "a."; o_sig "a." 43 1 "." [y_ds "a."]].
Definition y_broken : list RR := [w_ds "b."; o_sig "b." 43 1 "." [w_ds "b."]].

Ltac y_held := unfold y_root, y_lacking, y_broken, o_zones; cbn [app];
  repeat (apply Forall_cons; [unfold y_ds; o_held |]); apply Forall_nil.
Definition y_unsup : list RR := y_root ++ y_lacking.
Definition y_invalid : list RR := y_root ++ y_broken.
(** Both, in both orders: what was delegated last is looked at first. *)
Definition y_both_u : list RR := y_root ++ y_broken ++ y_lacking.
Definition y_both_i : list RR := y_root ++ y_lacking ++ y_broken.
Lemma y_unsup_held : Forall Held y_unsup. Proof. unfold y_unsup. y_held. Qed.
Lemma y_invalid_held : Forall Held y_invalid. Proof. unfold y_invalid. y_held. Qed.
Lemma y_both_u_held : Forall Held y_both_u. Proof. unfold y_both_u. y_held. Qed.
Lemma y_both_i_held : Forall Held y_both_i. Proof. unfold y_both_i. y_held. Qed.
Lemma y_unsup_err : echo y_unsup = Err UnsupportedAlgorithm. Proof. vm_compute. reflexivity. Qed.
Lemma y_invalid_err : echo y_invalid = Err Invalid. Proof. vm_compute. reflexivity. Qed.
Lemma y_both_u_err : echo y_both_u = Err UnsupportedAlgorithm. Proof. vm_compute. reflexivity. Qed.
Lemma y_both_i_err : echo y_both_i = Err Invalid. Proof. vm_compute. reflexivity. Qed.

(** The zones delegated by the root. *)
Lemma first_arrived e inp st z : Forall Held inp -> (forall s, In (RR_RRSig s) inp -> ~ EmptyMaxLabels inp s) ->
  zone_step e false inp vinit = Ok st -> In z (map fst (v_pending st)) -> Arrived e inp z.
Proof.
  intros Hh Hm Z H. apply in_map_iff in H as ([z' d] & E & I). cbn [fst] in E. subst z'.
  apply (arrived_step e inp Hh Hm [] vinit st) with (d := d); [apply seen_init | intros y d' [] | left; reflexivity | exact Z | exact I].
Qed.
Ltac y_arrived h := eapply first_arrived; [exact h | apply not_max; vm_compute; reflexivity | vm_compute; reflexivity | vm_compute; auto].

Lemma y_a_lacking inp : delegations inp (bs "a.") = flat_map ds_of [y_ds "a."] -> Lacking echo_env inp (bs "a.").
Proof.
  intros E. left. rewrite E. cbn [flat_map ds_of y_ds app]. split; [discriminate |]. apply Forall_cons; [| apply Forall_nil].
  unfold known_digest. cbn [ds_digest_type]. intros [H | [H | H]]; discriminate H.
Qed.
Lemma y_b_broken inp : sigs_over inp (bs "b.") 48 = [] -> delegations inp (bs "b.") = flat_map ds_of [w_ds "b."] -> Broken echo_env inp (bs "b.").
Proof.
  intros S E. split.
  - intros [(k & pre & post & H & _) _]. rewrite S in H. destruct pre; discriminate H.
  - intros [[_ H] | (_ & H & _)]; [| congruence]. rewrite E in H. inversion H as [| d l H1 H2]. subst. apply H1. right. left. reflexivity.
Qed.
Lemma y_unsup_why : Arrived echo_env y_unsup (bs "a.") /\ Lacking echo_env y_unsup (bs "a.").
Proof. split; [y_arrived y_unsup_held | apply y_a_lacking; vm_compute; reflexivity]. Qed.
Lemma y_invalid_why : Arrived echo_env y_invalid (bs "b.") /\ Broken echo_env y_invalid (bs "b.").
Proof. split; [y_arrived y_invalid_held | apply y_b_broken; vm_compute; reflexivity]. Qed.
Lemma y_both_u_why : Arrived echo_env y_both_u (bs "b.") /\ Broken echo_env y_both_u (bs "b.").
Proof. split; [y_arrived y_both_u_held | apply y_b_broken; vm_compute; reflexivity]. Qed.
Lemma y_both_i_why : Arrived echo_env y_both_i (bs "a.") /\ Lacking echo_env y_both_i (bs "a.").
Proof. split; [y_arrived y_both_i_held | apply y_a_lacking; vm_compute; reflexivity]. Qed.

(** Without the provisos about the other kind of zone. *)
Lemma unsup_refuted : ~ (forall e inp fuel, Forall Held inp -> (forall s, In (RR_RRSig s) inp -> ~ EmptyMaxLabels inp s) -> SortsNeeds e -> TwoParams e inp -> OneZone e inp ->
  Ends e inp false fuel -> (exists z, Arrived e inp z /\ Lacking e inp z) -> verify_rr_stream e false fuel inp = Err UnsupportedAlgorithm).
Proof.
  intros H. assert (E := y_both_i_err). unfold echo in E. specialize (H echo_env y_both_i 10%nat y_both_i_held). rewrite H in E; [discriminate E | | exact echo_sorts | | | | exists (bs "a."); exact y_both_i_why].
  - apply not_max. vm_compute. reflexivity.
  - apply no_nsec3. vm_compute. reflexivity.
  - apply (signers _ [46]). intros s I _ _. left. unfold y_both_i, y_root, y_lacking, y_broken, w_key, w_ds, y_ds, o_sig in I. cbn [app In] in I.
    repeat match type of I with _ \/ _ => destruct I as [I | I] end; try discriminate I; try contradiction; injection I as <-; reflexivity.
  - assert (V := y_both_i_err). unfold echo in V. split; rewrite V; discriminate.
Qed.
Lemma invalid_refuted : ~ (forall e inp fuel, Forall Held inp -> (forall s, In (RR_RRSig s) inp -> ~ EmptyMaxLabels inp s) -> SortsNeeds e -> TwoParams e inp -> OneZone e inp ->
  Ends e inp false fuel -> (exists z, Arrived e inp z /\ Broken e inp z) -> verify_rr_stream e false fuel inp = Err Invalid).
Proof.
  intros H. assert (E := y_both_u_err). unfold echo in E. specialize (H echo_env y_both_u 10%nat y_both_u_held). rewrite H in E; [discriminate E | | exact echo_sorts | | | | exists (bs "b."); exact y_both_u_why].
  - apply not_max. vm_compute. reflexivity.
  - apply no_nsec3. vm_compute. reflexivity.
  - apply (signers _ [46]). intros s I _ _. left. unfold y_both_u, y_root, y_lacking, y_broken, w_key, w_ds, y_ds, o_sig in I. cbn [app In] in I.
    repeat match type of I with _ \/ _ => destruct I as [I | I] end; try discriminate I; try contradiction; injection I as <-; reflexivity.
  - assert (V := y_both_u_err). unfold echo in V. split; rewrite V; discriminate.
Qed.

(** A delegation with a SHA-384 digest only, to a zone which is otherwise in order. *)
Definition y_ds4 : RR :=
  RR_DS {| ds_name := bs "a."; ds_key_tag := 20326; ds_alg := 8; ds_digest_type := 4; ds_digest := root_digest_20326 |}.
Definition y_sha384 : list RR :=
  y_root ++ [y_ds4; o_sig "a." 43 1 "." [y_ds4]; w_key "a."; o_sig "a." 48 1 "a." [w_key "a."]; w_a "x.a."; o_sig "x.a." 1 2 "a." [w_a "x.a."]].
Lemma y_sha384_held : Forall Held y_sha384.
Proof. unfold y_sha384, y_root. cbn [app]. repeat (apply Forall_cons; [unfold y_ds4; o_held |]); apply Forall_nil. Qed.
Lemma y_sha384_err : echo y_sha384 = Err Invalid.
Proof. vm_compute. reflexivity. Qed.
Lemma y_root_settled : Settled echo_env y_sha384 [46].
Proof.
  apply settled_done; [exact y_sha384_held | apply not_max; vm_compute; reflexivity |].
  apply (zone_step_fine echo_env y_sha384 vinit); [apply (se_pend _ _ _ _ (seen_init echo_env y_sha384)) | left; reflexivity |].
  eexists. vm_compute. reflexivity.
Qed.
Lemma y_arrived_a z : Arrived echo_env y_sha384 z -> z = bs "a." \/ z = [46].
Proof.
  intros H. destruct H as [| z s A S G T]; [auto |]. left. destruct G as [(I & _) _].
  unfold y_sha384, y_root, y_ds4, w_key, w_a, o_sig in I. cbn [app In] in I.
  repeat match type of I with _ \/ _ => destruct I as [I | I] end; try discriminate I; try contradiction; injection I as <-; first [discriminate T | reflexivity].
Qed.
Lemma sha384_refuted : ~ (forall e inp fuel z, Forall Held inp -> (forall s, In (RR_RRSig s) inp -> ~ EmptyMaxLabels inp s) -> Ends e inp false fuel ->
  Arrived e inp z -> (forall y, Arrived e inp y -> y = z \/ Settled e inp y) ->
  delegations inp z <> [] -> Forall (fun d => ds_digest_type d <> 1 /\ ds_digest_type d <> 2) (delegations inp z) ->
  verify_rr_stream e false fuel inp = Err UnsupportedAlgorithm).
Proof.
  intros H. assert (E := y_sha384_err). unfold echo in E. rewrite (H echo_env y_sha384 10%nat (bs "a.")) in E; [discriminate E | exact y_sha384_held | | | | | |].
  - apply not_max. vm_compute. reflexivity.
  - split; rewrite E; discriminate.
  - y_arrived y_sha384_held.
  - intros y Y. apply y_arrived_a in Y as [-> | ->]; [left; reflexivity | right; exact y_root_settled].
  - vm_compute. discriminate.
  - assert (D : delegations y_sha384 (bs "a.") = flat_map ds_of [y_ds4]) by (vm_compute; reflexivity). rewrite D. cbn [flat_map ds_of y_ds4 app].
    apply Forall_cons; [split; discriminate | apply Forall_nil].
Qed.
