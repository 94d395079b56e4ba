(** Repeating an RRSIG which is already in the input changes nothing. *)
From Verif Require Import Base BaseP NameM NameSpec NameP WireM RRM SerM ValM RecSpec ValSpec ValP ValP2 ValP3 ValP4 ValP5 OrdRR OrderSpec OrderP.
From Coq Require Import Permutation.
Local Open Scope N_scope.

Lemma bind_ok_inv {E A B} (o : outcome E A) (f : A -> outcome E B) b : obind o f = Ok b -> exists a, o = Ok a /\ f a = Ok b.
Proof. destruct o; cbn; intros H; try discriminate. eauto. Qed.

(** ** Signatures over RRSIGs: the outcome does not depend on the records *)
Lemma signed_record_release_cases s r : (exists p, signed_record false s r = Ok p) \/ signed_record false s r = Err Invalid.
Proof.
  unfold signed_record. cbv zeta. destruct (_ && _); cbn [andb]; [| left; eexists; reflexivity].
  destruct (_ <? _); [right; reflexivity |]. destruct (trailing_n_labels _ _); [left; eexists; reflexivity | right; reflexivity].
Qed.
Lemma signed_records_cases s rs : (exists m, signed_records false s rs = Ok m) /\ Forall (fun r => exists p, signed_record false s r = Ok p) rs \/
  signed_records false s rs = Err Invalid /\ ~ Forall (fun r => exists p, signed_record false s r = Ok p) rs.
Proof.
  induction rs as [| r rs IH]; cbn [signed_records]; [left; split; [eexists; reflexivity | constructor] |].
  destruct (signed_record_release_cases s r) as [[p Hp] | Hr].
  - rewrite Hp. cbn [obind]. destruct IH as [[[m M] F] | [M F]]; rewrite M; cbn [obind]; [left; split; [eexists; reflexivity | constructor; eauto] | right; split; [reflexivity |]].
    intros X. inversion X; subst. auto.
  - rewrite Hr. cbn [obind]. right. split; [reflexivity |]. intros X. inversion X as [| ? ? [p Y]]; subst. congruence.
Qed.
Lemma check_sig_kind e s k m m' : check_sig e s k m = Err UnsupportedAlgorithm -> check_sig e s k m' = Err UnsupportedAlgorithm.
Proof.
  unfold check_sig. cbv zeta. destruct (_ || _); [destruct (bytes_to_rsa_pk _) as [[]|]; [destruct (e_sig _ _ _ _ _)|]; discriminate |].
  destruct (_ || _); [destruct (e_sig _ _ _ _ _); discriminate |]. destruct (_ =? 15); [destruct (e_sig _ _ _ _ _); discriminate | reflexivity].
Qed.
Lemma check_sig_unsup_or e s k m : check_sig e s k m = Err UnsupportedAlgorithm \/ check_sig e s k m = Err Invalid \/ check_sig e s k m = Ok tt.
Proof.
  unfold check_sig. cbv zeta. destruct (_ || _); [destruct (bytes_to_rsa_pk _) as [[]|]; [destruct (e_sig _ _ _ _ _)|]; auto |].
  destruct (_ || _); [destruct (e_sig _ _ _ _ _); auto |]. destruct (_ =? 15); [destruct (e_sig _ _ _ _ _); auto | auto].
Qed.
(** Either both are [UnsupportedAlgorithm], or neither is. *)
Lemma verify_rrsig_kind e s keys rs rs' : (forall r, In r rs <-> In r rs') ->
  (verify_rrsig e false s keys rs = Err UnsupportedAlgorithm <-> verify_rrsig e false s keys rs' = Err UnsupportedAlgorithm).
Proof.
  assert (G : forall rs rs', (forall r, In r rs <-> In r rs') -> verify_rrsig e false s keys rs = Err UnsupportedAlgorithm -> verify_rrsig e false s keys rs' = Err UnsupportedAlgorithm).
  - clear rs rs'. intros rs rs' I. unfold verify_rrsig. destruct (existsb _ rs) eqn:E; [discriminate |].
    assert (E' : existsb (fun r => negb (rs_ty s =? rr_ty r)) rs' = false).
    { apply not_true_is_false. intros C. apply existsb_exists in C as (x & X & C). apply I in X. assert (existsb (fun r => negb (rs_ty s =? rr_ty r)) rs = true) by (apply existsb_exists; eauto). congruence. }
    rewrite E'. induction keys as [| k l IH]; cbn [verify_with_keys]; [discriminate |]. destruct (key_usable s k); [| exact IH].
    destruct (signed_records_cases s (sort_by rr_cmp rs)) as [[[m M] F] | [M F]]; rewrite M; cbn [obind]; [| discriminate]. intros C.
    destruct (signed_records_cases s (sort_by rr_cmp rs')) as [[[m' M'] F'] | [M' F']]; rewrite M'; cbn [obind]; [eapply check_sig_kind; exact C |].
    exfalso. apply F'. rewrite Forall_forall in *. intros x X. apply F. eapply Permutation_in; [apply sort_perm |]. apply I. eapply Permutation_in; [apply Permutation_sym, sort_perm | exact X].
  - intros I. split; apply G; firstorder.
Qed.
Lemma verify_rrsig_shape e s keys rs : verify_rrsig e false s keys rs = Ok tt \/ verify_rrsig e false s keys rs = Err Invalid \/ verify_rrsig e false s keys rs = Err UnsupportedAlgorithm.
Proof.
  unfold verify_rrsig. destruct (existsb _ rs); [auto |]. induction keys as [| k l IH]; cbn [verify_with_keys]; [auto |]. destruct (key_usable s k); [| exact IH].
  destruct (signed_records_cases s (sort_by rr_cmp rs)) as [[[m M] F] | [M F]]; rewrite M; cbn [obind]; [| auto]. destruct (check_sig_unsup_or e s k (sig_prefix s ++ m)) as [H | [H | H]]; auto.
Qed.
Lemma sig_step_rrsig e inp z s st : rs_ty s = 46 -> sig_step e false inp z s st =
  if negb (ends_with (rs_name s) z) then Err Invalid else
  match verify_rrsig e false s (zone_dnskeys inp z) (covered inp s) with Err UnsupportedAlgorithm => Ok st | _ => Err Invalid end.
Proof.
  intros T. unfold sig_step. destruct (negb _); [reflexivity |]. destruct (verify_rrsig_shape e s (zone_dnskeys inp z) (covered inp s)) as [H | [H | H]]; rewrite H; [| reflexivity ..].
  cbv zeta. rewrite T. reflexivity.
Qed.

(** ** A signature already taken into account *)
Definition absorbed (e : env) (inp : list RR) (z : list N) (s : rrsig) (st : vstate) : Prop := sig_step e false inp z s st = Ok st.
Definition counted (inp : list RR) (s : rrsig) (st : vstate) : Prop :=
  (rs_ty s =? T_RRSIG) || (rs_ty s =? T_DNSKEY) = false /\
  resolve_time (rs_inception s) <= v_inception st /\ v_expiry st <= resolve_time (rs_expiration s) /\ v_ttl st <= rs_orig_ttl s /\
  (if rs_ty s =? T_DS then existsb (fun p => bytes_eqb (fst p) (rs_name s)) (v_pending st) = true
   else incl (covered inp s) (v_res st) /\ wildcard_need false s = Ok []).
Lemma note_same s st : resolve_time (rs_inception s) <= v_inception st -> v_expiry st <= resolve_time (rs_expiration s) -> v_ttl st <= rs_orig_ttl s -> note_sig s st = st.
Proof. intros A B C. unfold note_sig. rewrite N.max_l, !N.min_l by assumption. destruct st; reflexivity. Qed.
Lemma add_same rs res : incl rs res -> add_records rs res = res.
Proof.
  unfold add_records. induction rs as [| r rs IH]; intros I; cbn [fold_left]; [reflexivity |].
  assert (E : existsb (rr_eqb r) res = true). { apply existsb_exists. exists r. split; [apply I; left; reflexivity |]. unfold rr_eqb. destruct (rr_eq_dec r r); [reflexivity | congruence]. }
  rewrite E. apply IH. intros x X. apply I. right. exact X.
Qed.
Lemma counted_absorbed e inp z s st : ends_with (rs_name s) z = true -> verify_rrsig e false s (zone_dnskeys inp z) (covered inp s) = Ok tt -> counted inp s st -> absorbed e inp z s st.
Proof.
  intros E V (A & B & C & D & F). unfold absorbed, sig_step. rewrite E, V. cbn [negb]. cbv zeta. rewrite (note_same s st B C D), A.
  destruct (rs_ty s =? T_DS).
  - unfold push_ds. rewrite F. reflexivity.
  - destruct F as [F1 F2]. rewrite F2. cbn [obind]. rewrite (add_same _ _ F1), app_nil_r. destruct st; reflexivity.
Qed.
Lemma step_counted e inp z s st st' : ~ Expanded s -> held_sig s -> verify_rrsig e false s (zone_dnskeys inp z) (covered inp s) = Ok tt ->
  sig_step e false inp z s st = Ok st' -> counted inp s st'.
Proof.
  intros X H V. unfold sig_step. destruct (negb _); [discriminate |]. rewrite V. cbv zeta. destruct (_ || _) eqn:T; [discriminate |]. intros O. unfold counted. rewrite T. split; [reflexivity |].
  assert (W : rs_ty s =? T_DS = false -> wildcard_need false s = Ok []).
  { intros _. unfold wildcard_need. destruct (negb (rs_labels s =? labels (rs_name s))) eqn:E; [| reflexivity]. destruct (negb (rs_ty s =? T_NSEC)) eqn:E2; [| reflexivity]. exfalso. apply X. split.
    - apply negb_true_iff, N.eqb_neq in E2. exact E2.
    - intros (ls & L1 & L2). apply negb_true_iff, N.eqb_neq in E. apply E. destruct (valid_labels (rs_name s)) as (ls' & V1 & V2); [apply H |]. rewrite (labelsof_inj _ _ _ L1 V1) in *. rewrite (labels_of _ _ V1 V2). auto. }
  destruct (rs_ty s =? T_DS) eqn:D.
  - inversion O; subst. unfold push_ds. cbn [note_sig v_pending]. destruct (existsb _ (v_pending st)) eqn:E.
    + cbn [note_sig v_inception v_expiry v_ttl v_pending]. repeat split; try lia. exact E.
    + cbn [note_sig v_inception v_expiry v_ttl v_pending existsb fst]. repeat split; try lia. rewrite bytes_eqb_refl. reflexivity.
  - rewrite (W eq_refl) in O. cbn [obind] in O. inversion O; subst. cbn [note_sig v_inception v_expiry v_ttl v_res]. repeat split; try lia; auto.
    intros r R. apply in_add_records. left. exact R.
Qed.
Lemma counted_mono e inp z s t st st' : counted inp s st -> sig_step e false inp z t st = Ok st' -> counted inp s st'.
Proof.
  intros (A & B & C & D & F). unfold sig_step. destruct (negb _); [discriminate |]. destruct (verify_rrsig _ _ _ _ _) as [[]| [] | |]; try discriminate; [| intros O; inversion O; subst; repeat split; auto].
  cbv zeta. destruct ((rs_ty t =? T_RRSIG) || (rs_ty t =? T_DNSKEY)); [discriminate |]. unfold counted. rewrite A. destruct (rs_ty t =? T_DS).
  - intros O. inversion O; subst. unfold push_ds. cbn [note_sig v_pending]. destruct (existsb (fun p => bytes_eqb (fst p) (rs_name t)) (v_pending st)) eqn:E.
    + cbn [note_sig v_inception v_expiry v_ttl v_pending v_res]. repeat split; try lia. exact F.
    + cbn [note_sig v_inception v_expiry v_ttl v_pending v_res existsb]. repeat split; try lia. destruct (rs_ty s =? T_DS); [rewrite F; apply orb_true_r | exact F].
  - intros O. apply bind_ok_inv in O as (nd & _ & O). inversion O; subst. cbn [note_sig v_inception v_expiry v_ttl v_pending v_res]. repeat split; try lia.
    destruct (rs_ty s =? T_DS); [exact F |]. destruct F as [F1 F2]. split; [| exact F2]. intros r R. apply in_add_records. right. apply F1, R.
Qed.

Section Dup.
  Variables (e : env) (inp : list RR) (z : list N) (s : rrsig).
  Hypothesis HX : ~ Expanded s.
  Hypothesis HH : held_sig s.
  Lemma loop_counted sigs : forall st st', counted inp s st -> sigs_loop e false inp z sigs st = Ok st' -> counted inp s st'.
  Proof.
    induction sigs as [| t l IH]; intros st st' C; cbn [sigs_loop]; [intros H; inversion H; subst; auto |]. intros H. apply bind_ok_inv in H as (st1 & H1 & H2). eapply IH; [| exact H2]. eapply counted_mono; eauto.
  Qed.
  Lemma loop_absorbs xs : In s xs -> forall st st', sigs_loop e false inp z xs st = Ok st' -> absorbed e inp z s st'.
  Proof.
    induction xs as [| t l IH]; [intros [] |]. intros I st st' H. cbn [sigs_loop] in H. apply bind_ok_inv in H as (st1 & H1 & H2). destruct I as [-> | I]; [| eapply IH; eauto].
    assert (H0 := H1). unfold sig_step in H1. destruct (negb (ends_with (rs_name s) z)) eqn:E; [discriminate |]. apply negb_false_iff in E.
    destruct (verify_rrsig_shape e s (zone_dnskeys inp z) (covered inp s)) as [V | [V | V]]; rewrite V in H1; [| discriminate |].
    - apply counted_absorbed; auto. eapply loop_counted; [| exact H2]. eapply step_counted; eauto.
    - unfold absorbed, sig_step. rewrite E, V. reflexivity.
  Qed.
  Lemma sigs_app xs ys st : sigs_loop e false inp z (xs ++ ys) st = obind (sigs_loop e false inp z xs st) (sigs_loop e false inp z ys).
  Proof. revert st. induction xs as [| x l IH]; intros st; cbn [app sigs_loop]; [reflexivity |]. destruct (sig_step _ _ _ _ _ _); cbn [obind]; auto. Qed.
  Lemma sigs_dup xs ys st : In s xs -> sigs_loop e false inp z (xs ++ s :: ys) st = sigs_loop e false inp z (xs ++ ys) st.
  Proof.
    intros I. rewrite !sigs_app. destruct (sigs_loop e false inp z xs st) as [st'| | |] eqn:E; cbn [obind]; auto. cbn [sigs_loop]. assert (A := loop_absorbs xs I st st' E). unfold absorbed in A. rewrite A. reflexivity.
  Qed.
End Dup.

Lemma dnskey_sigs_dup e s keys recs xs ys : In s xs -> forall b, verify_dnskey_sigs e false (xs ++ s :: ys) keys recs b = verify_dnskey_sigs e false (xs ++ ys) keys recs b.
Proof.
  induction xs as [| t l IH]; [intros [] |]. intros I b. cbn [app verify_dnskey_sigs]. destruct (verify_rrsig e false t keys (map RR_DnsKey recs)) as [[]| [] | |] eqn:V; auto.
  destruct I as [-> | I]; [| apply IH, I]. clear IH.
  assert (G : forall l0, verify_dnskey_sigs e false (l0 ++ s :: ys) keys recs true = verify_dnskey_sigs e false (l0 ++ ys) keys recs true); [| apply (G l)].
  induction l0 as [| u l0 IH]; cbn [app verify_dnskey_sigs]; [rewrite V; reflexivity |]. destruct (verify_rrsig e false u keys (map RR_DnsKey recs)) as [[]| [] | |]; auto.
Qed.

Lemma rrsig_repeated e fuel a s b : Held (RR_RRSig s) -> ~ Expanded s -> In (RR_RRSig s) a ->
  verify_rr_stream e false fuel (a ++ RR_RRSig s :: b) = verify_rr_stream e false fuel (a ++ b).
Proof.
  intros H X I. assert (HS : held_sig s) by (eapply held_rrsig with (inp := [RR_RRSig s]); [constructor; [exact H | constructor] | left; reflexivity]).
  unfold verify_rr_stream. assert (L : zone_loop e false (a ++ RR_RRSig s :: b) fuel vinit = zone_loop e false (a ++ b) fuel vinit); [| rewrite L; reflexivity].
  assert (Z : forall st, zone_step e false (a ++ RR_RRSig s :: b) st = zone_step e false (a ++ b) st).
  2: { generalize vinit. induction fuel as [| f IH]; intros st; cbn [zone_loop]; [reflexivity |]. destruct (_ || _); [| reflexivity]. rewrite Z. destruct (zone_step _ _ _ _); cbn [obind]; auto. }
  intros st. unfold zone_step. destruct (pop_zone st) as [st1 nd]. destruct (if bytes_eqb _ _ then _ else _) as [dses|]; [| reflexivity].
  set (z := v_zone st1).
  assert (K : zone_dnskeys (a ++ RR_RRSig s :: b) z = zone_dnskeys (a ++ b) z) by (unfold zone_dnskeys; rewrite !flat_map_app; reflexivity).
  assert (RS : rrsigs (a ++ RR_RRSig s :: b) = rrsigs a ++ s :: rrsigs b) by (rewrite rrsigs_app; reflexivity).
  assert (IA : In s (rrsigs a)) by (apply in_rrsigs; exact I).
  assert (DV : verify_dnskeys e false (dnskey_rrsigs (a ++ RR_RRSig s :: b) z) dses (zone_dnskeys (a ++ b) z) = verify_dnskeys e false (dnskey_rrsigs (a ++ b) z) dses (zone_dnskeys (a ++ b) z)).
  { unfold verify_dnskeys. destruct (is_nil dses); [reflexivity |]. destruct (negb _); [reflexivity |]. unfold dnskey_rrsigs. rewrite RS, rrsigs_app, !filter_app. cbn [filter].
    destruct (bytes_eqb (rs_name s) z && (rs_ty s =? T_DNSKEY)) eqn:E; [| reflexivity]. apply dnskey_sigs_dup. apply filter_In. auto. }
  rewrite K, DV. clear DV. destruct (verify_dnskeys _ _ _ _ _) as [s0| | |]; cbn [obind]; [| reflexivity ..].
  assert (C : forall t, In t (rrsigs (a ++ RR_RRSig s :: b)) -> rs_ty t <> 46 -> covered (a ++ RR_RRSig s :: b) t = covered (a ++ b) t).
  { intros t _ T. unfold covered. rewrite !filter_app. cbn [filter rr_name rr_ty]. f_equal. destruct (T_RRSIG =? rs_ty t) eqn:E; [apply N.eqb_eq in E; exfalso; apply T; symmetry; exact E |]. rewrite andb_false_r. reflexivity. }
  assert (SS : forall t st2, sig_step e false (a ++ RR_RRSig s :: b) z t st2 = sig_step e false (a ++ b) z t st2).
  { intros t st2. destruct (N.eq_dec (rs_ty t) 46) as [T | T].
    - rewrite !sig_step_rrsig by exact T. rewrite K. destruct (negb _); [reflexivity |].
      assert (Q := verify_rrsig_kind e t (zone_dnskeys (a ++ b) z) (covered (a ++ RR_RRSig s :: b) t) (covered (a ++ b) t)).
      assert (QI : forall r, In r (covered (a ++ RR_RRSig s :: b) t) <-> In r (covered (a ++ b) t)).
      { intros r. unfold covered. rewrite !filter_In, !in_app_iff. cbn [In]. split; [intros [[R | [R | R]] R2] | intros [[R | R] R2]]; split; auto. subst r. auto. }
      specialize (Q QI).
      destruct (verify_rrsig_shape e t (zone_dnskeys (a ++ b) z) (covered (a ++ RR_RRSig s :: b) t)) as [V | [V | V]], (verify_rrsig_shape e t (zone_dnskeys (a ++ b) z) (covered (a ++ b) t)) as [V' | [V' | V']];
        rewrite V, V' in *; auto; exfalso; destruct Q as [Q1 Q2]; first [discriminate (Q1 eq_refl) | discriminate (Q2 eq_refl)].
    - unfold sig_step, push_ds. rewrite K.
      assert (C' : covered (a ++ RR_RRSig s :: b) t = covered (a ++ b) t).
      { unfold covered. rewrite !filter_app. cbn [filter rr_name rr_ty]. f_equal. destruct (T_RRSIG =? rs_ty t) eqn:E; [apply N.eqb_eq in E; exfalso; apply T; symmetry; exact E |]. rewrite andb_false_r. reflexivity. }
      rewrite C'. reflexivity. }
  assert (SL : forall l st2, sigs_loop e false (a ++ RR_RRSig s :: b) z l st2 = sigs_loop e false (a ++ b) z l st2).
  { induction l as [| t l IH]; intros st2; cbn [sigs_loop]; [reflexivity |]. rewrite SS. destruct (sig_step e false (a ++ b) z t st2); cbn [obind]; auto. }
  rewrite SL. unfold zone_rrsigs. rewrite RS, rrsigs_app, !filter_app. cbn [filter].
  destruct (bytes_eqb (rs_key_name s) z && negb (rs_ty s =? T_DNSKEY)) eqn:E; [| reflexivity]. apply sigs_dup; auto. apply filter_In. auto.
Qed.
