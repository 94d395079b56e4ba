(** Proofs for Prop_Tie: the order of the data records. *)
From Verif Require Import Base BaseP NameM WireM RRM SerM ValM NameSpec RecSpec NameP ValSpec ValP ValP2 ValP4 SignedP AcceptSpec AcceptP3 OrderSpec OrderP TieSpec TieP.
From Coq Require Import Permutation.
Local Open Scope N_scope.

(** ** Every result is in the input and has an RRSIG *)
Definition res_signed (inp : list RR) (st : vstate) : Prop :=
  forall r, In r (v_res st) -> In r inp /\ exists s, In s (rrsigs inp) /\ rs_ty s = rr_ty r /\ rs_name s = rr_name r.
Lemma signed_sig_step e dbg inp z s st st' : In s (rrsigs inp) -> res_signed inp st -> sig_step e dbg inp z s st = Ok st' -> res_signed inp st'.
Proof.
  intros I B. unfold sig_step. destruct (negb _); [discriminate |]. destruct (verify_rrsig _ _ _ _ _) as [[]| [] | |]; try discriminate; [| intros H; inversion H; subst; exact B].
  cbv zeta. destruct (_ || _); [discriminate |]. destruct (rs_ty s =? T_DS).
  - intros H. inversion H; subst. unfold push_ds. destruct (existsb _ _); exact B.
  - destruct (wildcard_need dbg s) as [nd| | |] eqn:W; cbn [obind]; try discriminate. intros H. inversion H; subst. cbn [v_needs v_res note_sig].
    intros r R. cbn [v_res] in R. apply in_add_records in R as [R | R]; [| apply B, R]. unfold covered in R. apply filter_In in R as [R1 R]. split; [exact R1 |]. exists s. split; [exact I |].
    apply andb_true_iff in R as [R2 R3]. apply N.eqb_eq in R3. apply bytes_eqb_eq in R2. split; congruence.
Qed.
Lemma signed_sigs_loop e dbg inp z sigs : incl sigs (rrsigs inp) -> forall st st', res_signed inp st -> sigs_loop e dbg inp z sigs st = Ok st' -> res_signed inp st'.
Proof.
  induction sigs as [| s l IH]; intros I st st' F; cbn [sigs_loop]; [intros H; inversion H; subst; auto |].
  destruct (sig_step _ _ _ _ _ _) as [st1| | |] eqn:E; cbn [obind]; try discriminate. apply IH; [intros x X; apply I; right; auto |]. eapply signed_sig_step; eauto. apply I. left. reflexivity.
Qed.
Lemma signed_zone_step e dbg inp st st' : res_signed inp st -> zone_step e dbg inp st = Ok st' -> res_signed inp st'.
Proof.
  intros F. unfold zone_step. assert (G : res_signed inp (fst (pop_zone st))) by (unfold pop_zone; destruct (v_pending st) as [| []]; exact F).
  destruct (pop_zone st) as [st1 nd]. cbn [fst] in G. destruct (if bytes_eqb _ _ then _ else _); [| discriminate].
  destruct (verify_dnskeys _ _ _ _ _) as [s| | |]; cbn [obind]; try discriminate. apply signed_sigs_loop; [| exact G]. unfold zone_rrsigs. intros x X. apply filter_In in X. tauto.
Qed.
Lemma signed_zone_loop e dbg inp fuel : forall st st', res_signed inp st -> zone_loop e dbg inp fuel st = Ok st' -> res_signed inp st'.
Proof.
  induction fuel as [| f IH]; intros st st' F; cbn [zone_loop]; (destruct (_ || _); [| intros H; inversion H; subst; auto]); [discriminate |].
  destruct (zone_step _ _ _ _) as [st1| | |] eqn:E; cbn [obind]; try discriminate. apply IH. eapply signed_zone_step; eauto.
Qed.

(** ** Whether a need can be met does not depend on the order of the results *)
Lemma able_at e res nm z ty : Forall Held res -> valid_name nm -> able e res (nm, z, ty) -> DischargedAt e res z nm ty.
Proof. intros H V A. unfold able in A. destruct (discharge e res (nm, z, ty) []) eqn:D; [| congruence]. eapply discharge_at; eauto. Qed.
Lemma at_able e res nm z ty : Forall Held res -> two_params res z -> valid_name nm -> DischargedAt e res z nm ty -> able e res (nm, z, ty).
Proof. intros. unfold able. apply discharge_conv; assumption. Qed.
Lemma at_perm e res res' nm z ty : Permutation res res' -> DischargedAt e res z nm ty -> DischargedAt e res' z nm ty.
Proof.
  intros P [(n & p & A & B) | (n & p & A & B)]; [left | right]; exists n, p; (split; [eapply Permutation_in; eauto | exact B]).
Qed.

Lemma need_valid dbg s nd : held_sig s -> wildcard_need dbg s = Ok [nd] -> valid_name (fst (fst nd)).
Proof.
  intros H W. unfold wildcard_need in W. destruct (_ && _); [| discriminate]. destruct (rs_ty s =? T_NSEC3); [discriminate |]. destruct (dbg && _); [discriminate |].
  destruct (trailing_n_labels _ _) as [n|] eqn:T; [| discriminate]. injection W as <-. cbn [fst]. apply trailing_valid in T as [T _]; [exact T | apply H].
Qed.

Lemma verdict_order_wide e dbg fuel inp inp' : Forall Held inp -> SortsNeeds e -> Permutation inp inp' -> sigs_of inp = sigs_of inp' -> keys_of inp = keys_of inp' ->
  OneSigner inp -> TwoN3Params inp -> SameVerdict (verify_rr_stream e dbg fuel inp) (verify_rr_stream e dbg fuel inp').
Proof.
  intros HH SN P S K O T. unfold verify_rr_stream. rewrite sigs_of_rrsigs, (sigs_of_rrsigs inp') in S. rewrite keys_of_dnskeys, (keys_of_dnskeys inp') in K.
  assert (Z := same_zones e dbg inp inp' P S K fuel vinit vinit). assert (F := from_zone_loop e dbg inp fuel vinit). assert (RS := signed_zone_loop e dbg inp fuel vinit).
  destruct (zone_loop e dbg inp fuel vinit) as [st| x | |], (zone_loop e dbg inp' fuel vinit) as [st'| x' | |]; cbn [obind]; try (exfalso; apply Z; repeat split; auto; constructor); try (apply Z; repeat split; auto; constructor).
  specialize (F st). specialize (RS st). assert (R : SameState st st') by (apply Z; repeat split; auto; constructor). clear Z.
  assert (FS : from_sigs dbg inp st) by (apply F; [split; intros ? [] | reflexivity]). clear F.
  assert (RS' : res_signed inp st) by (apply RS; [intros ? [] | reflexivity]). clear RS. destruct R as (_ & B & C & D & E & G & _ & _).
  unfold finish_verify. rewrite <- (OrderP.perm_nil _ _ G), <- B, <- C, <- D, <- E. destruct (is_nil (v_res st)); [reflexivity |]. destruct (v_expiry st <=? v_inception st); [reflexivity |]. cbv zeta.
  assert (PL : proof_loop e (v_res st) (length (e_sort_needs e (v_needs st))) (rev (e_sort_needs e (v_needs st))) = proof_loop e (v_res st') (length (e_sort_needs e (v_needs st))) (rev (e_sort_needs e (v_needs st)))).
  - assert (IN : forall nd, In nd (rev (e_sort_needs e (v_needs st))) -> In nd (v_needs st)).
    { intros nd I. apply in_rev in I. apply (Permutation_in _ (Permutation_sym (SN (v_needs st)))) in I. exact I. }
    apply loop_same; [| apply Permutation_refl | rewrite rev_length; lia .. |].
    + assert (ZD := needs_zoned dbg inp st HH O FS). intros x y X Y. apply ZD; apply IN; assumption.
    + intros [[nm z] ty] I. apply IN in I. destruct (proj1 FS _ I) as (s & S1 & S2). apply in_rrsigs in S1. assert (HS : held_sig s) by (eapply held_rrsig; eauto).
      assert (V := need_valid _ _ _ HS S2). apply need_name in S2 as (X & Y & _); [| exact HS]. cbn [fst snd] in V, Y. subst z.
      assert (Hr : Forall Held (v_res st)) by (rewrite Forall_forall in *; intros r Ir; apply HH, RS', Ir).
      assert (Hr' : Forall Held (v_res st')) by (eapply Permutation_Forall; eauto).
      assert (TP : forall res, Permutation (v_res st) res -> two_params res (rs_key_name s)).
      { intros res PR. destruct (T s S1 X) as (p & q & Q). exists p, q. intros n pre In3 En A1 A2. apply (Permutation_in _ (Permutation_sym PR)) in In3.
        destruct (RS' _ In3) as (J & s' & J1 & J2 & J3). apply in_rrsigs in J1. eapply (Q n s' pre); eauto. }
      split; intros Ab; apply able_at in Ab; auto; apply at_able; auto; try (apply TP, Permutation_refl).
      * eapply at_perm; [exact G | exact Ab].
      * eapply at_perm; [apply Permutation_sym, G | exact Ab].
  - rewrite <- PL. destruct (proof_loop _ _ _ _); cbn [obind SameVerdict]; auto. unfold SameResult. cbn [vr_rrs vr_valid_from vr_expires vr_max_cache_ttl]. repeat split; auto. apply perm_filter, G.
Qed.
