(** Witnesses for Prop_Roll. *)
From Verif Require Import Base BaseP NameM WireM RRM SerM ValM NameSpec RecSpec ValSpec ValP ValP2 ValP3 SignedP ValW ValW2 OrderW AcceptSpec AcceptP AcceptP2 AcceptW RevokeSpec RevokeW RollSpec RollP.
From Coq Require Import String Permutation.
Local Open Scope N_scope.

(** The zone a. has an old and a new key, which both sign its keys; the new one signs the address. *)
Definition rl_new : dnskey := {| dk_name := bs "a."; dk_flags := 257; dk_protocol := 3; dk_alg := 8; dk_pubkey := [1; 3; 74; 91] |}.
Definition rl_ds : RR :=
  RR_DS {| ds_name := bs "a."; ds_key_tag := key_tag rl_new; ds_alg := 8; ds_digest_type := 2; ds_digest := 0 :: key_id rl_new |}.
Definition rl_zones (dss : list RR) : list RR :=
  [w_key "."; RR_RRSig (rv_rrsig "." 48 0 20326 "." [w_key "."])] ++ dss ++ [RR_RRSig (rv_rrsig "a." 43 1 20326 "." dss);
   w_key "a."; RR_DnsKey rl_new; RR_RRSig (rv_rrsig "a." 48 1 20326 "a." [w_key "a."; RR_DnsKey rl_new])].
Definition rl_last : list RR :=
  [RR_RRSig (rv_rrsig "a." 48 1 (key_tag rl_new) "a." [w_key "a."; RR_DnsKey rl_new]); w_a "x.a."; RR_RRSig (rv_rrsig "x.a." 1 2 (key_tag rl_new) "a." [w_a "x.a."])].
(** With DS records for both keys, and for the old one only. *)
Definition rl_both : list RR := rl_zones [rv_ds; rl_ds] ++ rl_last.
Definition rl_one : list RR := rl_zones [rv_ds] ++ rl_last.

Ltac rl_all := unfold rl_both, rl_one, rl_zones, rl_last; cbn [app]; repeat (apply Forall_cons; [unfold rl_new, rl_ds, rv_ds, rv_rrsig, w_key, w_a; unfold Held; cbn [typed_rr rs_name rs_ty rs_alg rs_labels rs_orig_ttl rs_expiration rs_inception rs_key_tag rs_key_name rs_signature];
  repeat match goal with |- _ /\ _ => split | |- is_bytes _ => bytes_in_range | |- _ => in_range end |]); apply Forall_nil.
Lemma rl_both_held : Forall Held rl_both.
Proof. rl_all. Qed.
Lemma rl_one_held : Forall Held rl_one.
Proof. rl_all. Qed.
Lemma rl_both_ok : exists v, verify_rr_stream rv_env false 10 rl_both = Ok v /\ vr_rrs v = [w_a "x.a."].
Proof. eexists. split; vm_compute; reflexivity. Qed.
Lemma rl_both_rev : exists v, verify_rr_stream rv_env false 10 (rev rl_both) = Ok v /\ vr_rrs v = [w_a "x.a."].
Proof. eexists. split; vm_compute; reflexivity. Qed.
Lemma rl_one_ok : exists v, verify_rr_stream rv_env false 10 rl_one = Ok v /\ vr_rrs v = [w_a "x.a."].
Proof. eexists. split; vm_compute; reflexivity. Qed.
Lemma rl_one_rev : verify_rr_stream rv_env false 10 (rev rl_one) = Err Invalid.
Proof. vm_compute. reflexivity. Qed.

Ltac rl_in H := unfold rl_both, rl_one, rl_zones, rl_last in H; cbn [app In] in H;
  repeat match goal with H : _ \/ _ |- _ => destruct H as [H | H] end; try discriminate; try contradiction.
Lemma rl_visited inp z : inp = rl_both \/ inp = rl_one -> Visited rv_env inp z -> z = [46] \/ z = bs "a.".
Proof.
  intros E V. destruct V as [| z s _ ((H & _) & _) T]; [left; reflexivity | right].
  destruct E as [-> | ->]; rl_in H; injection H as <-; solve [discriminate T | reflexivity].
Qed.
Lemma rl_one_key inp : inp = rl_both \/ inp = rl_one -> OneKey inp.
Proof.
  intros [-> | ->] k k' H H' E T _; rl_in H; rl_in H'; injection H as <-; injection H' as <-; try reflexivity; try discriminate E; vm_compute in T; discriminate T.
Qed.
Lemma rl_current inp : inp = rl_both \/ inp = rl_one -> AllCurrent rv_env inp.
Proof.
  intros E a b Ha Hb.
  assert (G : forall s, Relied rv_env inp s -> rs_inception s = 1000000000 /\ rs_expiration s = 2000000000).
  { intros s Hs. assert (I : In (RR_RRSig s) inp).
    { destruct Hs as [(z & _ & [(pre & post & K & _) | ((K & _) & _)]) | (z & _ & K)]; [| exact K |].
      - assert (I : In s (sigs_over inp z 48)) by (rewrite K; apply in_or_app; right; left; reflexivity). apply AcceptP5.in_sigs_over in I. tauto.
      - apply AcceptP5.in_sigs_over in K. tauto. }
    destruct E as [-> | ->]; rl_in I; injection I as <-; split; reflexivity. }
  apply G in Ha as [-> _], Hb as [_ ->]. vm_compute. reflexivity.
Qed.
Lemma rl_max inp : inp = rl_both \/ inp = rl_one -> forall s, In (RR_RRSig s) inp -> ~ EmptyMaxLabels inp s.
Proof. intros [-> | ->]; apply not_max; vm_compute; reflexivity. Qed.
Lemma rl_two inp : inp = rl_both \/ inp = rl_one -> TwoParams rv_env inp.
Proof. intros [-> | ->]; apply no_nsec3; vm_compute; reflexivity. Qed.
Lemma rl_zone inp : inp = rl_both \/ inp = rl_one -> OneZone rv_env inp.
Proof.
  intros E. apply (signers inp (bs "a.")). intros s H T _.
  destruct E as [-> | ->]; rl_in H; injection H as <-; try (contradiction T; reflexivity); try (left; reflexivity).
  all: right; exists []; (split; [| reflexivity]); (split; [reflexivity |]; split; [constructor | discriminate]).
Qed.

Lemma rl_valid inp z s b : Forall Held inp -> In (RR_RRSig s) inp ->
  verify_dnskey_sigs rv_env false [s] (validated_dnskeys rv_env (dss_of inp z) (zone_dnskeys inp z)) (zone_dnskeys inp z) b = Ok s ->
  ValidSig rv_env (DelegatedKey rv_env (delegations inp z)) (keys_at inp z) s (rrset inp z 48).
Proof.
  intros Hh Hs H. rewrite dss_of_eq in H. apply dnskey_sigs_spec in H as (pre & post & _ & _ & H); [exact H | exact Hh |].
  intros x [<- | []]. exact Hs.
Qed.
Lemma rl_vouched : AllVouched rv_env rl_both.
Proof.
  intros z s V H. left. apply (rl_visited _ _ (or_introl eq_refl)) in V. apply AcceptP5.in_sigs_over in H as (H & N & T).
  apply (rl_valid _ _ _ false rl_both_held H).
  destruct V as [-> | ->]; rl_in H; injection H as <-; try discriminate T; try discriminate N; vm_compute; reflexivity.
Qed.
Lemma rl_signed : AllSigned rv_env rl_one.
Proof.
  intros z s V H. left. apply (rl_visited _ _ (or_intror eq_refl)) in V. apply AcceptP5.in_sigs_over in H as (H & N & T).
  rewrite <- T. rewrite <- N at 2. apply (ok_valid rv_env rl_one rl_one_held z s H).
  destruct V as [-> | ->]; rl_in H; injection H as <-; try discriminate T; try discriminate N; unfold ok; vm_compute; reflexivity.
Qed.
Lemma rolled_refuted : ~ (forall e inp, Forall Held inp -> SortsNeeds e -> OneKey inp -> AllSigned e inp -> AllCurrent e inp ->
  (forall s, In (RR_RRSig s) inp -> ~ EmptyMaxLabels inp s) -> TwoParams e inp -> OneZone e inp ->
  forall fuel v, verify_rr_stream e false fuel inp = Ok v -> AnyOrder e inp v).
Proof.
  intros H. destruct rl_one_ok as (v & E & _). assert (O : rl_one = rl_both \/ rl_one = rl_one) by (right; reflexivity).
  destruct (H rv_env rl_one rl_one_held rv_sorts (rl_one_key _ O) rl_signed (rl_current _ O) (rl_max _ O) (rl_two _ O) (rl_zone _ O) 10%nat v E (rev rl_one) (Permutation_rev _)) as (f & v' & K & _).
  apply (turned_down rv_env (rev rl_one) 10 rl_one_rev). exists f, v'. exact K.
Qed.
