(** Witnesses for Prop_Tie. *)
From Verif Require Import Base BaseP NameM WireM RRM SerM ValM NameSpec RecSpec ValSpec OrdP ValP ValP2 ValP3 SignedP ValW OrderSpec OrderW AcceptW TieSpec.
From Coq Require Import String Permutation Sorted PeanoNat.
Local Open Scope N_scope.

(** [echo_env] with two ways to sort: the second puts elements with equal names the other way round. *)
Definition sorting (f : list need -> list need) : env :=
  {| e_sha1 := e_sha1 echo_env; e_sha256 := e_sha256 echo_env; e_sig := e_sig echo_env; e_sort_needs := f |}.
Definition t_first : env := sorting (sort_by nsec_ord_extra).
Definition t_second : env := sorting (fun l => sort_by nsec_ord_extra (rev l)).
Lemma t_same : SameCrypto t_first t_second.
Proof. repeat split. Qed.

Definition in_order (a b : need) : Prop := ~ name_lt (fst (fst b)) (fst (fst a)).
Lemma ord_in_order a b : nsec_ord_extra a b <> Gt -> in_order a b.
Proof.
  unfold nsec_ord_extra, in_order. intros H (la & lb & A & B & C). apply (nsec_ord_labels _ _ _ _ A B) in C.
  apply H. rewrite (nsec_ord_antisym (fst (fst b)) (fst (fst a))), C. reflexivity.
Qed.
Lemma insert_sorted x : forall l, Sorted in_order l -> Sorted in_order (insert_by nsec_ord_extra x l).
Proof.
  assert (G : forall y, nsec_ord_extra x y = Gt -> in_order y x).
  { intros y H. apply ord_in_order. unfold nsec_ord_extra in *. rewrite (nsec_ord_antisym (fst (fst x)) (fst (fst y))), H. discriminate. }
  induction l as [| y t IH]; intros S; cbn [insert_by]; [repeat constructor |].
  assert (X : nsec_ord_extra x y <> Gt -> Sorted in_order (x :: y :: t)) by (intros N; constructor; [exact S |]; constructor; apply ord_in_order, N).
  destruct (nsec_ord_extra x y) eqn:E; try (apply X; discriminate). clear X. inversion S as [| ? ? S1 S2]; subst. specialize (IH S1). constructor; [exact IH |].
  destruct t as [| z t]; cbn [insert_by] in *; [constructor; apply G, E |]. inversion S2; subst. destruct (nsec_ord_extra x z); constructor; auto.
Qed.
Lemma sort_in_order l : Sorted in_order (sort_by nsec_ord_extra l).
Proof. induction l as [| x l IH]; cbn [sort_by]; [constructor |]. apply insert_sorted, IH. Qed.
Lemma first_sorts : SortsByName t_first.
Proof. intros l. split; [apply sort_perm | apply sort_in_order]. Qed.
Lemma second_sorts : SortsByName t_second.
Proof. intros l. split; [| apply sort_in_order]. eapply Permutation_trans; [apply Permutation_rev | apply sort_perm]. Qed.

(** *.a. as the zone a. and as the root have signed it, and an NSEC of the root between whose names x.a. is. *)
Definition t_nsec : RR := w_nsec "." "b." [2].
Definition t_two : list RR := o_zones ++
  [w_a "x.a."; o_sig "x.a." 1 1 "a." [w_a "x.a."]; o_sig "x.a." 1 1 "." [w_a "x.a."]; t_nsec; o_sig "." 47 0 "." [t_nsec]].
Ltac t_held_all := unfold o_zones, t_nsec; cbn [app]; repeat (apply Forall_cons; [o_held |]); apply Forall_nil.
Lemma t_two_held : Forall Held t_two.
Proof. unfold t_two. t_held_all. Qed.
Lemma t_two_first : verify_rr_stream t_first false 10 t_two = Err Invalid.
Proof. vm_compute. reflexivity. Qed.
Lemma t_two_second : exists v, verify_rr_stream t_second false 10 t_two = Ok v /\ vr_rrs v = [w_a "x.a."].
Proof. eexists. split; vm_compute; reflexivity. Qed.
Lemma ties_refuted : ~ (forall e e' inp, Forall Held inp -> SameCrypto e e' -> SortsByName e -> SortsByName e' ->
  verify_rr_stream e false 10 inp = verify_rr_stream e' false 10 inp).
Proof.
  intros H. destruct t_two_second as (v & E & _). assert (X := eq_trans (eq_sym t_two_first) (eq_trans (H t_first t_second t_two t_two_held t_same first_sorts second_sorts) E)). discriminate X.
Qed.

(** ** The order of the data, with two zones signing *)
(** Two NSECs at x.a., neither with type A, one with TXT; y.x.a. is a zone of its own. *)
Definition t_ns : RR := w_nsec "x.a." "z.a." [2].
Definition t_ns_txt : RR := w_nsec "x.a." "z.a." [16].
Definition t_txt : RR := RR_Txt {| tx_name := bs "y.x.a."; tx_data := [] |}.
Definition t_rest : list RR := o_zones ++
  [w_ds "y.x.a."; o_sig "y.x.a." 43 3 "a." [w_ds "y.x.a."]; w_key "y.x.a."; o_sig "y.x.a." 48 3 "y.x.a." [w_key "y.x.a."];
   w_a "x.a."; o_sig "x.a." 1 1 "a." [w_a "x.a."]; t_txt; o_sig "y.x.a." 16 1 "y.x.a." [t_txt]; o_sig "x.a." 47 2 "a." [t_ns_txt; t_ns]].
Definition t_deep : list RR := t_ns :: t_ns_txt :: t_rest.
Definition t_deep' : list RR := t_ns_txt :: t_ns :: t_rest.
Lemma t_deep_held : Forall Held t_deep.
Proof. unfold t_deep, t_rest, t_ns, t_ns_txt, t_txt. t_held_all. Qed.
Lemma t_deep_perm : Permutation t_deep t_deep' /\ sigs_of t_deep = sigs_of t_deep' /\ keys_of t_deep = keys_of t_deep'.
Proof. split; [apply perm_swap | split; reflexivity]. Qed.
Lemma t_deep_ok : exists v, verify_rr_stream t_second false 10 t_deep = Ok v /\ vr_rrs v = [w_a "x.a."; t_txt].
Proof. eexists. split; vm_compute; reflexivity. Qed.
Lemma t_deep_bad : verify_rr_stream t_second false 10 t_deep' = Err Invalid.
Proof. vm_compute. reflexivity. Qed.
Lemma no_params inp : forallb (fun r => match r with RR_NSec3 _ => false | _ => true end) inp = true -> TwoN3Params inp.
Proof.
  intros H s _ _. exists (0, []), (0, []). intros n s' pre I. rewrite forallb_forall in H. apply H in I. discriminate.
Qed.
Lemma signer_refuted : ~ (forall e inp inp', Forall Held inp -> SortsNeeds e -> Permutation inp inp' -> sigs_of inp = sigs_of inp' -> keys_of inp = keys_of inp' ->
  TwoN3Params inp -> SameVerdict (verify_rr_stream e false 10 inp) (verify_rr_stream e false 10 inp')).
Proof.
  intros H. destruct t_deep_perm as (P & S & K). assert (T : TwoN3Params t_deep) by (apply no_params; vm_compute; reflexivity).
  pose proof (H t_second t_deep t_deep' t_deep_held (fun l => proj1 (second_sorts l)) P S K T) as X. destruct t_deep_ok as (v & E & _).
  assert (Y : SameVerdict (Ok v) (Err Invalid)) by (refine (eq_ind _ (fun o => SameVerdict o _) (eq_ind _ (fun o => SameVerdict _ o) X _ t_deep_bad) _ E)). exact Y.
Qed.

(** ** One wildcard signer, three sets of NSEC3 parameters in one RRset *)
Definition t_n3 (flags iters : N) : RR :=
  RR_NSec3 {| n3_name := bs hash_0 ++ bs ".a."; n3_algo := 1; n3_flags := flags; n3_iters := iters; n3_salt := [171]; n3_next_hash := repeat 255 20; n3_types := mask_from_types [1] |}.
Definition t_tail : list RR := w_root ++ w_zone "a." 1 ++ [w_a "x.a."; w_sig "x.a." 1 1 "a."; w_nsec3_sig hash_0].
Definition t_params : list RR := t_n3 0 3 :: t_n3 1 1 :: t_n3 1 2 :: t_tail.
Definition t_params' : list RR := t_n3 1 1 :: t_n3 1 2 :: t_n3 0 3 :: t_tail.
Lemma t_params_held : Forall Held t_params.
Proof.
  unfold t_params, t_tail, t_n3, w_root, w_zone. cbn [app]. repeat (apply Forall_cons; [n3_held |]). apply Forall_nil.
Qed.
Lemma t_params_perm : Permutation t_params t_params' /\ sigs_of t_params = sigs_of t_params' /\ keys_of t_params = keys_of t_params'.
Proof. split; [| split; reflexivity]. unfold t_params, t_params'. apply (Permutation_app_tail t_tail (l := [_; _; _]) (l' := [_; _; _])). apply (Permutation_cons_append [_; _]). Qed.
Lemma t_params_ok : exists v, verify_rr_stream n3_env false 10 t_params = Ok v /\ vr_rrs v = [w_a "x.a."].
Proof. eexists. split; vm_compute; reflexivity. Qed.
Lemma t_params_bad : verify_rr_stream n3_env false 10 t_params' = Err Invalid.
Proof. vm_compute. reflexivity. Qed.

(** ** Deciding [OneSigner] *)
Definition one_signer (inp : list RR) : bool :=
  forallb (fun s => forallb (fun s' =>
    bytes_eqb (rs_key_name s) (rs_key_name s') || (rs_labels s =? labels (rs_name s)) || (rs_labels s' =? labels (rs_name s')) || (rs_ty s =? 47) || (rs_ty s' =? 47) ||
    match trailing_n_labels (rs_name s) (as_u8 (rs_labels s + 1)), trailing_n_labels (rs_name s') (as_u8 (rs_labels s' + 1)) with
    | Some a, Some b => negb (bytes_eqb a b) | _, _ => true end) (sigs_of inp)) (sigs_of inp).
Lemma next_closer_trailing s nc : held_sig s -> NextCloserOf s nc -> trailing_n_labels (rs_name s) (as_u8 (rs_labels s + 1)) = Some nc.
Proof.
  intros H X. destruct (valid_labels (rs_name s)) as (ls & L1 & L2); [apply H |]. rewrite (trailing_of _ _ _ L1 L2). assert (LB : rs_labels s < 256) by apply H.
  destruct X as [(pre & l & suf & A & B & ->) | (A & ->)].
  - rewrite <- (labelsof_inj _ _ _ A L1) in *. rewrite app_length in L2 |- *. cbn [List.length] in L2 |- *. unfold as_u8. rewrite N.mod_small by lia.
    replace (_ <? _) with false by (symmetry; apply N.ltb_ge; lia). do 2 f_equal.
    replace (List.length pre + Datatypes.S (List.length suf) - N.to_nat (rs_labels s + 1))%nat with (List.length pre) by lia. rewrite skipn_app, skipn_all, Nat.sub_diag. reflexivity.
  - unfold as_u8. rewrite A. change ((255 + 1) mod 256) with 0. replace (_ <? 0) with false by (symmetry; apply N.ltb_ge; lia). do 2 f_equal. apply skipn_all2. lia.
Qed.
Lemma one_signer_ok inp : Forall Held inp -> one_signer inp = true -> OneSigner inp.
Proof.
  intros HH H s s' I I' X X' nc C C'. unfold one_signer in H. rewrite forallb_forall in H.
  assert (S : forall t, In (RR_RRSig t) inp -> In t (sigs_of inp)) by (intros t T; unfold sigs_of; apply in_flat_map; exists (RR_RRSig t); split; [exact T | left; reflexivity]).
  specialize (H s (S s I)). rewrite forallb_forall in H. specialize (H s' (S s' I')).
  assert (HS := held_rrsig _ _ HH I). assert (HS' := held_rrsig _ _ HH I'). rewrite (next_closer_trailing _ _ HS C), (next_closer_trailing _ _ HS' C') in H.
  assert (NE : forall t, held_sig t -> Expanded t -> (rs_labels t =? labels (rs_name t)) = false /\ (rs_ty t =? 47) = false).
  { intros t Ht (E1 & E2). split; apply N.eqb_neq; [| exact E1]. intros E. apply E2. destruct (valid_labels (rs_name t)) as (ls & L1 & L2); [apply Ht |]. exists ls. split; [exact L1 |]. rewrite E. symmetry. apply labels_of; assumption. }
  destruct (NE s HS X) as [A1 A2], (NE s' HS' X') as [A3 A4]. rewrite A1, A2, A3, A4 in H. assert (B : bytes_eqb nc nc = true) by (apply bytes_eqb_eq; reflexivity). rewrite B in H. cbn [negb] in H. rewrite !orb_false_r in H. apply bytes_eqb_eq, H.
Qed.
Lemma params_refuted : ~ (forall e inp inp', Forall Held inp -> SortsNeeds e -> Permutation inp inp' -> sigs_of inp = sigs_of inp' -> keys_of inp = keys_of inp' ->
  OneSigner inp -> SameVerdict (verify_rr_stream e false 10 inp) (verify_rr_stream e false 10 inp')).
Proof.
  intros H. destruct t_params_perm as (P & S & K). assert (O : OneSigner t_params) by (apply one_signer_ok; [exact t_params_held | vm_compute; reflexivity]).
  pose proof (H n3_env t_params t_params' t_params_held n3_sorts P S K O) as X. destruct t_params_ok as (v & E & _).
  assert (Y : SameVerdict (Ok v) (Err Invalid)) by (refine (eq_ind _ (fun o => SameVerdict o _) (eq_ind _ (fun o => SameVerdict _ o) X _ t_params_bad) _ E)). exact Y.
Qed.

(** ** Wildcard answers signed by two zones, at different names, one denied by an NSEC3 *)
Definition t_mixed (rs : list RR) : list RR := rs ++ w_root ++ w_zone "a." 1 ++
  [w_a "x.a."; w_sig "x.a." 1 1 "a."; w_nsec3_sig hash_0; w_a "y."; w_sig "y." 1 0 "."; w_nsec "b." "z." [2]; w_sig "b." 47 1 "."].
Definition t_mix : list RR := t_mixed [t_n3 0 3; t_n3 1 1].
Definition t_mix' : list RR := t_mixed [t_n3 1 1; t_n3 0 3].
Lemma t_mix_held : Forall Held t_mix.
Proof. unfold t_mix, t_mixed, t_n3, w_nsec, w_root, w_zone. cbn [app]. repeat (apply Forall_cons; [n3_held |]). apply Forall_nil. Qed.
Lemma t_mix_perm : Permutation t_mix t_mix' /\ sigs_of t_mix = sigs_of t_mix' /\ keys_of t_mix = keys_of t_mix'.
Proof. split; [apply perm_swap | split; reflexivity]. Qed.
Lemma t_mix_signer : OneSigner t_mix.
Proof. apply one_signer_ok; [exact t_mix_held | vm_compute; reflexivity]. Qed.
Lemma t_mix_params : TwoN3Params t_mix.
Proof.
  intros s _ _. exists (3, [171]), (1, [171]). intros n s' pre I _ _ _ _ _ _. unfold t_mix, t_mixed, w_root, w_zone, t_n3 in I. cbn [app In] in I.
  repeat match goal with H : _ \/ _ |- _ => destruct H as [H | H] end; try discriminate; try contradiction; injection I as <-; [left | right]; reflexivity.
Qed.
Lemma t_mix_ok : (exists v, verify_rr_stream n3_env false 10 t_mix = Ok v /\ vr_rrs v = [w_a "y."; w_a "x.a."]) /\
  (exists v, verify_rr_stream n3_env false 10 t_mix' = Ok v /\ vr_rrs v = [w_a "y."; w_a "x.a."]).
Proof. split; eexists; split; vm_compute; reflexivity. Qed.
(** [n3_env] looking for the denials the other way round. *)
Definition n3_rev : env := {| e_sha1 := e_sha1 n3_env; e_sha256 := e_sha256 n3_env; e_sig := e_sig n3_env; e_sort_needs := @rev need |}.
Lemma n3_rev_same : SameCrypto n3_env n3_rev /\ SortsNeeds n3_rev.
Proof. split; [repeat split |]. intros l. apply Permutation_rev. Qed.
Lemma t_mix_rev : exists v, verify_rr_stream n3_rev false 10 t_mix = Ok v /\ vr_rrs v = [w_a "y."; w_a "x.a."].
Proof. eexists. split; vm_compute; reflexivity. Qed.
