(** Panics and termination of [verify_rr_stream] (C25, C26). *)
From Verif Require Import Base BaseP NameM WireM RRM SerM ValM NameSpec NameP RecSpec RecP RecP2 CodecSpec CodecP ValSpec ValP ValP2
  ValP3 HeldP.
From Coq Require Import Permutation Arith.
Local Open Scope N_scope.

(** ** Panics *)
Definition Safe (r : RR) : Prop := Held r /\ write_data_overflows r = false.

Lemma signed_record_safe dbg s r : Safe r -> signed_record dbg s r <> Panic /\ signed_record dbg s r <> Loop.
Proof.
  intros [H W]. unfold signed_record. cbv zeta. rewrite W, andb_false_r.
  assert (T : (if negb (rr_ty r =? T_NSEC) && negb (labels (rr_name r) =? rs_labels s) then
     if labels (rr_name r) <? rs_labels s then Err Invalid
     else match trailing_n_labels (rr_name r) (rs_labels s) with
          | Some n => Ok ([1; 42] ++ write_name n)
          | None => if dbg then @Panic verr (list N) else Err Invalid
          end
     else Ok (write_name (rr_name r))) = Err Invalid \/ exists w, (if negb (rr_ty r =? T_NSEC) && negb (labels (rr_name r) =? rs_labels s) then
     if labels (rr_name r) <? rs_labels s then Err Invalid
     else match trailing_n_labels (rr_name r) (rs_labels s) with
          | Some n => Ok ([1; 42] ++ write_name n)
          | None => if dbg then @Panic verr (list N) else Err Invalid
          end
     else Ok (write_name (rr_name r))) = Ok w).
  { destruct (negb (rr_ty r =? T_NSEC) && negb (labels (rr_name r) =? rs_labels s)); [|eauto].
    destruct (labels (rr_name r) <? rs_labels s) eqn:E; [auto|].
    apply held_name, valid_labels in H as (ls & Hl & Hs). rewrite (labels_of _ _ Hl Hs) in E.
    rewrite (trailing_of _ _ _ Hl Hs), E. eauto. }
  destruct T as [->|[w ->]]; split; discriminate.
Qed.

Lemma signed_records_safe dbg s rs : Forall Safe rs -> signed_records dbg s rs <> Panic /\ signed_records dbg s rs <> Loop.
Proof.
  induction 1 as [|r rs Hr Hrs [IH1 IH2]]; cbn [signed_records]; [split; discriminate|].
  destruct (signed_record_safe dbg s r Hr) as [A B].
  destruct (signed_record dbg s r); cbn [obind]; try (split; congruence).
  destruct (signed_records dbg s rs); cbn [obind]; split; congruence.
Qed.

Lemma check_sig_safe e s k msg : check_sig e s k msg <> Panic /\ check_sig e s k msg <> Loop.
Proof.
  unfold check_sig. cbv zeta.
  destruct ((rs_alg s =? 8) || (rs_alg s =? 10)).
  { destruct (bytes_to_rsa_pk _) as [[n x]|]; [destruct (e_sig _ _ _ _ _)|]; split; discriminate. }
  destruct ((rs_alg s =? 13) || (rs_alg s =? 14)); [destruct (e_sig _ _ _ _ _); split; discriminate|].
  destruct (rs_alg s =? 15); [destruct (e_sig _ _ _ _ _)|]; split; discriminate.
Qed.

Lemma verify_rrsig_safe e dbg s keys rs : Forall Safe rs -> verify_rrsig e dbg s keys rs <> Panic /\ verify_rrsig e dbg s keys rs <> Loop.
Proof.
  intros H. unfold verify_rrsig. destruct (existsb _ rs); [split; discriminate|].
  assert (Hs : Forall Safe (sort_by rr_cmp rs)) by (rewrite <- (sort_perm rr_cmp rs); auto).
  induction keys as [|k keys IH]; cbn [verify_with_keys]; [split; discriminate|].
  destruct (key_usable s k); [|exact IH].
  destruct (signed_records_safe dbg s _ Hs) as [A B].
  destruct (signed_records dbg s (sort_by rr_cmp rs)); cbn [obind]; try (split; congruence). apply check_sig_safe.
Qed.

Lemma safe_rrset inp n t : Forall Safe inp -> Forall Safe (rrset inp n t).
Proof. rewrite !Forall_forall. intros H r Hr. apply in_rrset in Hr. apply H. tauto. Qed.

Lemma verify_dnskeys_safe e dbg inp z dss sigs : Forall Safe inp ->
  verify_dnskeys e dbg sigs dss (zone_dnskeys inp z) <> Panic /\ verify_dnskeys e dbg sigs dss (zone_dnskeys inp z) <> Loop.
Proof.
  intros H. unfold verify_dnskeys. destruct (is_nil dss); [split; discriminate|]. destruct (negb _); [split; discriminate|].
  generalize false. induction sigs as [|s sigs IH]; intros b; cbn [verify_dnskey_sigs]; [split; discriminate|].
  rewrite zone_keys_rrset.
  destruct (verify_rrsig_safe e dbg s (validated_dnskeys e dss (zone_dnskeys inp z)) _ (safe_rrset inp z 48 H)) as [A B].
  destruct (verify_rrsig e dbg s _ (rrset inp z 48)) as [|[]| |]; try (split; congruence). apply IH.
Qed.

Lemma wildcard_panic dbg s : wildcard_need dbg s = Panic -> dbg = true /\ 255 <= rs_labels s /\ rs_ty s <> 47 /\ rs_ty s <> 50 /\
  rs_labels s <> labels (rs_name s).
Proof.
  unfold wildcard_need. destruct (rs_ty s =? T_NSEC) eqn:E1; cbn [negb]; rewrite ?andb_false_r; [discriminate|].
  destruct (rs_labels s =? labels (rs_name s)) eqn:E0; cbn [negb andb]; [discriminate|]. apply N.eqb_neq in E0.
  destruct (rs_ty s =? T_NSEC3) eqn:E2; [discriminate|]. destruct dbg; cbn [andb].
  - destruct (255 <=? rs_labels s) eqn:E3; [|destruct (trailing_n_labels _ _); discriminate].
    apply N.eqb_neq in E1, E2. apply N.leb_le in E3. auto.
  - destruct (trailing_n_labels _ _); discriminate.
Qed.
Lemma wildcard_no_loop dbg s : wildcard_need dbg s <> Loop.
Proof.
  unfold wildcard_need. destruct (_ && _); [|discriminate]. destruct (_ =? _); [discriminate|].
  destruct (_ && _); [discriminate|]. destruct (trailing_n_labels _ _); discriminate.
Qed.

Section Panic.
  Variables (e : env) (dbg : bool) (inp : list RR).
  Hypothesis Hsafe : Forall Safe inp.
  Let Hheld : Forall Held inp.
  Proof. eapply Forall_impl; [|exact Hsafe]. intros r []. auto. Qed.

  Lemma sig_step_panic used visited done st z s : INV e dbg inp used visited done st -> TrustedZone e inp (fun x => In x used) z ->
    In s (zone_rrsigs inp z) -> sig_step e dbg inp z s st = Panic ->
    dbg = true /\ EmptyMaxLabels inp s /\ TrustedZone e inp (fun _ => True) z /\ SignedByZone e inp (fun _ => True) z s.
  Proof.
    intros I T Hs. apply in_zone_rrsigs in Hs as (S1 & S2 & S3). unfold sig_step.
    destruct (negb _); [discriminate|]. rewrite covered_rrset.
    destruct (verify_rrsig_safe e dbg s (zone_dnskeys inp z) (rrset inp (rs_name s) (rs_ty s)) (safe_rrset _ _ _ Hsafe)) as [NP _].
    destruct (verify_rrsig e dbg s (zone_dnskeys inp z) (rrset inp (rs_name s) (rs_ty s))) as [[]|[]| |] eqn:Hv; try discriminate; [|congruence].
    cbv zeta. destruct ((rs_ty s =? T_RRSIG) || (rs_ty s =? T_DNSKEY)) eqn:Et; [discriminate|].
    apply orb_false_iff in Et as [Et _]. apply N.eqb_neq in Et. destruct (rs_ty s =? T_DS) eqn:Ed; [discriminate|]. apply N.eqb_neq in Ed.
    rewrite obind_panic. intros [H|(a & _ & H)]; [|discriminate]. apply wildcard_panic in H as (D & L & T1 & T2 & T3).
    apply verify_rrsig_sigby in Hv as (k & K1 & K2); [|eapply held_rrsig; eauto|apply held_rrset; auto|apply held_keys; auto].
    split; [exact D|]. split; [|split].
    - assert (HL : rs_labels s = 255).
      { apply (held_rrsig inp) in S1; auto. destruct S1 as (_ & _ & _ & S1 & _). unfold is_u8 in S1. lia. }
      split; [|repeat split; auto].
      destruct (rrset inp (rs_name s) (rs_ty s)) as [|r rs] eqn:Er; [reflexivity|exfalso].
      assert (Hr : In r (rrset inp (rs_name s) (rs_ty s))) by (rewrite Er; left; auto).
      destruct K2 as (_ & _ & ord & msg & P & (ps & F & _) & _).
      assert (Hro : In r ord) by (eapply Permutation_in; [exact P|left; auto]).
      apply in_split in Hro as (l1 & l2 & ->). apply Forall2_app_inv_l in F as (p1 & p2 & _ & F & _).
      inversion F as [|? p ? ? (o & Ho & _) _]; subst.
      apply in_rrset in Hr as (Ri & Rn & Rt).
      assert (Hrh : Held r) by (eapply Forall_forall in Hheld; eauto).
      apply held_name, valid_labels in Hrh as (ls & Hl & Hlen).
      inversion Ho as [ls' Hl' Hn|Hn|pre suf Ht Hl' Hp Hn]; subst.
      + pose proof (labelsof_inj _ _ _ Hl Hl') as El. subst ls'. apply T3. rewrite <- Rn. rewrite (labels_of _ _ Hl Hlen). auto.
      + congruence.
      + rewrite (labelsof_inj _ _ _ Hl Hl') in *. rewrite app_length in Hlen. destruct pre; [congruence|]. cbn [length] in Hlen. lia.
    - eapply trusted_mono; [|exact T]. auto.
    - split; [exact S1|]. split; [auto|]. split; [exact S2|]. exists k. split; [apply in_zone_keys; auto|exact K2].
  Qed.

  Lemma sigs_loop_panic z sigs : (forall s, In s sigs -> In s (zone_rrsigs inp z)) -> forall used visited done st,
    INV e dbg inp used visited done st -> TrustedZone e inp (fun x => In x used) z ->
    sigs_loop e dbg inp z sigs st = Panic ->
    dbg = true /\ exists s, EmptyMaxLabels inp s /\ TrustedZone e inp (fun _ => True) z /\ SignedByZone e inp (fun _ => True) z s.
  Proof.
    induction sigs as [|s sigs IH]; intros Hin used visited done st I T; cbn [sigs_loop]; [discriminate|].
    rewrite obind_panic. intros [H|(st1 & H1 & H)].
    - eapply sig_step_panic in H as (D & H); eauto using in_eq.
    - destruct (inv_step _ _ _ Hheld _ _ _ _ _ _ _ I T (Hin s (or_introl eq_refl)) H1) as (u1 & M & I1).
      eapply IH; [|exact I1| |exact H]; [intros x Hx; apply Hin; right; auto|]. eapply trusted_mono; [|exact T]; auto.
  Qed.

  Lemma zone_step_panic used visited done st : INV e dbg inp used visited done st ->
    v_zone st = [46] \/ v_pending st <> [] -> zone_step e dbg inp st = Panic ->
    dbg = true /\ exists z s, EmptyMaxLabels inp s /\ TrustedZone e inp (fun _ => True) z /\ SignedByZone e inp (fun _ => True) z s.
  Proof.
    intros I HP. unfold zone_step.
    destruct (pop_zone st) as [st1 nds] eqn:Ep.
    destruct (if bytes_eqb (v_zone st1) root_name then Some root_hints else nds) as [dss|] eqn:Ed.
    - rewrite obind_panic. intros [H|(s & H1 & H)].
      + exfalso. eapply (proj1 (verify_dnskeys_safe e dbg inp (v_zone st1) dss _ Hsafe)); eauto.
      + destruct (inv_zone_key e dbg inp Hheld used visited done st st1 nds dss s I Ep Ed H1) as (I1 & Tz).
        eapply sigs_loop_panic in H as (D & x & H); [|intros y Hy; exact Hy|exact I1|exact Tz]. eauto.
    - intros _. exfalso. unfold pop_zone in Ep. destruct (v_pending st) as [|[z d] rest].
      + destruct HP as [HP|HP]; [|congruence]. inversion Ep; subst. rewrite HP in Ed. discriminate.
      + inversion Ep; subst. destruct (bytes_eqb _ _); discriminate.
  Qed.

  Lemma zone_loop_panic fuel : forall used visited done st, INV e dbg inp used visited done st ->
    closed inp visited done -> zone_loop e dbg inp fuel st = Panic ->
    dbg = true /\ exists z s, EmptyMaxLabels inp s /\ TrustedZone e inp (fun _ => True) z /\ SignedByZone e inp (fun _ => True) z s.
  Proof.
    induction fuel as [|fuel IH]; intros used visited done st I C; cbn [zone_loop];
      destruct (bytes_eqb (v_zone st) root_name || negb (is_nil (v_pending st))) eqn:E; try discriminate.
    rewrite obind_panic. intros [H|(st1 & H1 & H)].
    - eapply zone_step_panic; eauto. apply orb_true_iff in E as [E|E]; [left; apply bytes_eqb_eq in E; exact E|].
      right. apply negb_true_iff, is_nil_false in E. exact E.
    - destruct (inv_zone e dbg inp Hheld _ _ _ _ _ I C H1) as (u & d & J1 & J2 & _). eapply IH; eauto.
  Qed.

  Lemma proof_loop_safe res fuel needs : proof_loop e res fuel needs <> Panic.
  Proof.
    revert needs. induction fuel as [|fuel IH]; intros [|nd needs]; cbn [proof_loop]; try discriminate.
    destruct (discharge _ _ _ _); [apply IH|discriminate].
  Qed.

  Lemma verify_panic fuel : verify_rr_stream e dbg fuel inp = Panic ->
    dbg = true /\ exists z s, EmptyMaxLabels inp s /\ TrustedZone e inp (fun _ => True) z /\ SignedByZone e inp (fun _ => True) z s.
  Proof.
    unfold verify_rr_stream. rewrite obind_panic. intros [H|(st & H1 & H)].
    - eapply zone_loop_panic; eauto; [apply inv_init|]. intros z s [].
    - exfalso. unfold finish_verify in H. destruct (is_nil _); [discriminate|]. destruct (_ <=? _); [discriminate|].
      cbv zeta in H. apply obind_panic in H as [H|(? & _ & H)]; [|discriminate]. eapply proof_loop_safe; eauto.
  Qed.
End Panic.

(** ** Termination *)

(** More fuel does not change an outcome. *)
Lemma zone_loop_mono e dbg inp f : forall st, zone_loop e dbg inp f st <> Loop -> forall f', (f <= f')%nat ->
  zone_loop e dbg inp f' st = zone_loop e dbg inp f st.
Proof.
  induction f as [|f IH]; intros st H f' Hf.
  - cbn [zone_loop] in *. destruct f'; cbn [zone_loop];
      destruct (bytes_eqb (v_zone st) root_name || negb (is_nil (v_pending st))); congruence.
  - destruct f' as [|f']; [lia|]. cbn [zone_loop] in *.
    destruct (bytes_eqb (v_zone st) root_name || negb (is_nil (v_pending st))); [|reflexivity].
    destruct (zone_step e dbg inp st) as [st'|err| |]; cbn [obind] in *; try reflexivity. apply IH; [auto|lia].
Qed.
Lemma verify_mono e dbg inp f f' : verify_rr_stream e dbg f inp <> Loop -> (f <= f')%nat ->
  verify_rr_stream e dbg f' inp = verify_rr_stream e dbg f inp.
Proof.
  unfold verify_rr_stream. intros H Hf. rewrite (zone_loop_mono e dbg inp f vinit); auto.
  intros E. rewrite E in H. apply H. reflexivity.
Qed.

Lemma discharge_shrinks e res nd t t' : discharge e res nd t = Some t' -> (length t' <= length t)%nat.
Proof.
  destruct nd as [[nm zone] ty]. unfold discharge.
  assert (F : forall m ty l, (length (retain_needs nm m ty l) <= length l)%nat).
  { intros m ty0 l. unfold retain_needs. induction l as [|x l IH]; cbn [filter]; [lia|].
    destruct (negb _ || _); cbn [length]; lia. }
  destruct (find _ _) as [n|]; [intros H; inversion H; apply F|].
  destruct (nsec3_find _ _ _) as [[n m]|]; [intros H; inversion H; apply F|discriminate].
Qed.
Lemma proof_loop_no_loop e res fuel needs : (length needs <= fuel)%nat -> proof_loop e res fuel needs <> Loop.
Proof.
  revert needs. induction fuel as [|fuel IH]; intros [|nd needs] H; cbn [proof_loop]; try discriminate; [cbn in H; lia|].
  destruct (discharge e res nd needs) eqn:E; [|discriminate]. apply discharge_shrinks in E. apply IH. cbn in H. lia.
Qed.
Lemma finish_no_loop e st : finish_verify e st <> Loop.
Proof.
  unfold finish_verify. destruct (is_nil _); [discriminate|]. destruct (_ <=? _); [discriminate|].
  cbv zeta. rewrite obind_loop. intros [H|(? & _ & H)]; [|discriminate].
  eapply proof_loop_no_loop; [|exact H]. rewrite rev_length. lia.
Qed.

Section Termination.
  Variables (e : env) (dbg : bool) (inp : list RR).
  Hypothesis Hheld : Forall Held inp.

  Lemma verify_rrsig_no_loop s keys rs : verify_rrsig e dbg s keys rs <> Loop.
  Proof.
    unfold verify_rrsig. destruct (existsb _ rs); [discriminate|].
    assert (R : forall l, signed_records dbg s l <> Loop).
    { induction l as [|r l IH]; cbn [signed_records]; [discriminate|].
      assert (S1 : signed_record dbg s r <> Loop).
      { unfold signed_record. cbv zeta. rewrite obind_loop. intros [H|(? & _ & H)].
        - destruct (negb _ && negb _); [|discriminate]. destruct (_ <? _); [discriminate|].
          destruct (trailing_n_labels _ _); [discriminate|]. destruct dbg; discriminate.
        - destruct (dbg && _); discriminate. }
      rewrite obind_loop. intros [H|(a & _ & H)]; [auto|]. apply obind_loop in H as [H|(? & _ & H)]; [auto|discriminate]. }
    induction keys as [|k keys IH]; cbn [verify_with_keys]; [discriminate|].
    destruct (key_usable s k); [|exact IH]. rewrite obind_loop. intros [H|(? & _ & H)]; [eapply R; eauto|].
    eapply (proj2 (check_sig_safe _ _ _ _)); eauto.
  Qed.
  Lemma verify_dnskeys_no_loop sigs dss keys : verify_dnskeys e dbg sigs dss keys <> Loop.
  Proof.
    unfold verify_dnskeys. destruct (is_nil dss); [discriminate|]. destruct (negb _); [discriminate|].
    generalize false. induction sigs as [|s sigs IH]; intros b; cbn [verify_dnskey_sigs]; [discriminate|].
    pose proof (verify_rrsig_no_loop s (validated_dnskeys e dss keys) (map RR_DnsKey keys)).
    destruct (verify_rrsig _ _ _ _ _) as [|[]| |]; try discriminate; auto.
  Qed.
  Lemma sig_step_no_loop z s st : sig_step e dbg inp z s st <> Loop.
  Proof.
    unfold sig_step. destruct (negb _); [discriminate|].
    pose proof (verify_rrsig_no_loop s (zone_dnskeys inp z) (covered inp s)).
    destruct (verify_rrsig _ _ _ _ _) as [|[]| |]; try discriminate; auto.
    cbv zeta. destruct (_ || _); [discriminate|]. destruct (_ =? _); [discriminate|].
    rewrite obind_loop. intros [G|(? & _ & G)]; [|discriminate]. eapply wildcard_no_loop; eauto.
  Qed.
  Lemma zone_step_no_loop st : zone_step e dbg inp st <> Loop.
  Proof.
    unfold zone_step. destruct (pop_zone st) as [st1 nds]. destruct (if bytes_eqb _ _ then _ else _) as [dss|]; [|discriminate].
    rewrite obind_loop. intros [H|(s & _ & H)]; [eapply verify_dnskeys_no_loop; eauto|].
    revert H. generalize (note_sig s st1). induction (zone_rrsigs inp (v_zone st1)) as [|x l IH]; intros st2; cbn [sigs_loop]; [discriminate|].
    rewrite obind_loop. intros [H|(st3 & _ & H)]; [eapply sig_step_no_loop; eauto|eapply IH; eauto].
  Qed.

  (** Delegations the input contains signatures for. *)
  Definition ds_sig (s : rrsig) : Prop := In (RR_RRSig s) inp /\ rs_ty s = 43.
  Hypothesis Hself : forall s, ds_sig s -> rs_name s <> rs_key_name s.

  (** Weight of a pending zone: deeper zones weigh less. *)
  Definition base : nat := S (length (rrsigs inp)).
  Definition weight (z : list N) : nat := base ^ (256 - length z).
  Definition total (st : vstate) : nat := fold_right (fun p acc => weight (fst p) + acc)%nat O (v_pending st).

  Lemma step_pending z s st st' : sig_step e dbg inp z s st = Ok st' ->
    v_zone st' = v_zone st /\ (v_pending st' = v_pending st \/
    (rs_ty s = 43 /\ ends_with (rs_name s) z = true /\ exists d, v_pending st' = (rs_name s, d) :: v_pending st)).
  Proof.
    unfold sig_step. destruct (ends_with (rs_name s) z) eqn:Hz; cbn [negb]; [|discriminate].
    destruct (verify_rrsig e dbg s (zone_dnskeys inp z) (covered inp s)) as [[]|[]| |]; try discriminate.
    - cbv zeta. destruct ((rs_ty s =? T_RRSIG) || (rs_ty s =? T_DNSKEY)); [discriminate|].
      destruct (rs_ty s =? T_DS) eqn:Ed.
      + apply N.eqb_eq in Ed. intros H. assert (E : st' = push_ds inp s (note_sig s st)) by congruence. subst st'.
        unfold push_ds. destruct (existsb _ _); cbn [v_zone v_pending note_sig]; eauto 10.
      + intros H. apply obind_ok in H as (nd & _ & H).
        assert (E : forall a b : vstate, @Ok verr vstate a = Ok b -> b = a) by (intros; congruence).
        apply E in H. subst st'. cbn [v_zone v_pending note_sig]. auto.
    - intros H. assert (st' = st) by congruence. subst. auto.
  Qed.

  Lemma weight_step z n : (length z < length n)%nat -> (length n <= 255)%nat -> (base * weight n <= weight z)%nat.
  Proof.
    intros H1 H2. unfold weight. replace (base * base ^ (256 - length n))%nat with (base ^ S (256 - length n))%nat by reflexivity.
    apply Nat.pow_le_mono_r; [unfold base; lia|lia].
  Qed.
  Lemma weight_pos z : (1 <= weight z)%nat.
  Proof. unfold weight. pose proof (Nat.pow_nonzero base (256 - length z)). unfold base in *. lia. Qed.

  Lemma held_len s : In (RR_RRSig s) inp -> (length (rs_name s) <= 255)%nat.
  Proof.
    intros H. eapply Forall_forall in H; [|exact Hheld]. destruct H as [H _]. apply name_try_from_spec in H as [(ls & _ & _ & _ & H) _]. exact H.
  Qed.

  Lemma child_longer z s : ds_sig s -> rs_key_name s = z -> ends_with (rs_name s) z = true -> (length z < length (rs_name s))%nat.
  Proof.
    intros H K E. apply ends_with_spec in E as (p & E). destruct p as [|c p].
    - exfalso. apply (Hself s H). cbn [app] in E. congruence.
    - rewrite E. cbn [app length]. rewrite app_length. lia.
  Qed.

  (** One zone adds at most one child per RRSIG, all deeper. *)
  Lemma sigs_total z sigs : (forall s, In s sigs -> In s (zone_rrsigs inp z)) -> forall st st',
    sigs_loop e dbg inp z sigs st = Ok st' ->
    v_zone st' = v_zone st /\ (forall p, In p (v_pending st') -> In p (v_pending st) \/ (length z < length (fst p))%nat) /\
    (base * total st' <= base * total st + length sigs * weight z)%nat.
  Proof.
    induction sigs as [|s sigs IH]; intros Hin st st' H; cbn [sigs_loop] in H.
    - assert (st' = st) by congruence. subst. cbn [length]. split; [auto|]. split; [auto|lia].
    - apply obind_ok in H as (st1 & H1 & H2).
      apply IH in H2 as (Z & P & T); [|intros x Hx; apply Hin; right; auto].
      assert (Hs := Hin s (or_introl eq_refl)). apply in_zone_rrsigs in Hs as (S1 & S2 & S3).
      apply step_pending in H1 as (Z1 & [P1|(D & E & d & P1)]).
      + split; [congruence|]. split; [rewrite P1 in P; exact P|]. unfold total in *. rewrite P1 in T. cbn [length]. lia.
      + pose proof (child_longer z s (conj S1 D) S2 E) as CL. pose proof (weight_step z (rs_name s) CL (held_len s S1)) as W.
        split; [congruence|]. split.
        * intros p Hp. apply P in Hp as [Hp|Hp]; [|auto]. rewrite P1 in Hp. destruct Hp as [<-|Hp]; auto.
        * unfold total in *. rewrite P1 in T. cbn [fold_right fst length] in *. nia.
  Qed.

  Lemma zone_rrsigs_length z : (length (zone_rrsigs inp z) <= length (rrsigs inp))%nat.
  Proof.
    unfold zone_rrsigs. induction (rrsigs inp) as [|x l IH]; cbn [filter length]; [lia|]. destruct (_ && _); cbn [length]; lia.
  Qed.

  Lemma zone_step_total st st' : zone_step e dbg inp st = Ok st' -> v_pending st <> [] ->
    v_zone st' = v_zone (fst (pop_zone st)) /\ (total st' < total st)%nat /\
    (forall p, In p (v_pending st') -> In p (v_pending st) \/ (length (v_zone st') < length (fst p))%nat).
  Proof.
    intros H Hp. unfold zone_step in H. destruct (v_pending st) as [|[z d] rest] eqn:E; [congruence|].
    unfold pop_zone in *. rewrite E in *. cbn [fst v_zone] in *.
    destruct (if bytes_eqb z root_name then Some root_hints else Some d) as [dss|]; [|discriminate].
    apply obind_ok in H as (s & _ & H). apply sigs_total in H as (Z & P & T); [|auto].
    cbn [note_sig v_zone v_pending] in *. split; [exact Z|]. split.
    - assert (TT : total st = (weight z + fold_right (fun p acc => weight (fst p) + acc)%nat O rest)%nat) by (unfold total; rewrite E; reflexivity).
      unfold total in T at 2. cbn [v_pending] in T. pose proof (zone_rrsigs_length z). pose proof (weight_pos z).
      assert (T2 : (base * total st' <= base * fold_right (fun p acc => weight (fst p) + acc)%nat O rest + length (rrsigs inp) * weight z)%nat)
        by (etransitivity; [exact T|]; apply Nat.add_le_mono_l, Nat.mul_le_mono_r; auto).
      rewrite TT. unfold base in *. nia.
    - intros p Hi. apply P in Hi as [Hi|Hi]; [left; right; auto|right]. rewrite Z. exact Hi.
  Qed.

  Lemma zone_loop_terminates n : forall st, (total st <= n)%nat -> v_zone st <> [46] \/ v_pending st <> [] ->
    (forall p, In p (v_pending st) -> (2 <= length (fst p))%nat) ->
    zone_loop e dbg inp n st <> Loop.
  Proof.
    induction n as [|n IH]; intros st Ht HZ HP; cbn [zone_loop];
      destruct (bytes_eqb (v_zone st) root_name || negb (is_nil (v_pending st))) eqn:E; try discriminate.
    all: assert (NP : v_pending st <> []) by
      (destruct HZ as [HZ|HZ]; [|exact HZ]; apply orb_true_iff in E as [E|E];
        [apply bytes_eqb_eq in E; contradiction|destruct (v_pending st); [discriminate E|discriminate]]).
    - exfalso. unfold total in Ht. destruct (v_pending st) as [|[z d] rest]; [congruence|]. cbn [fold_right fst] in Ht.
      pose proof (weight_pos z). lia.
    - rewrite obind_loop. intros [H|(st' & H1 & H2)]; [eapply zone_step_no_loop; eauto|].
      apply zone_step_total in H1 as (Z & T & P); auto. revert H2.
      assert (ZL : (2 <= length (v_zone st'))%nat).
      { rewrite Z. unfold pop_zone. destruct (v_pending st) as [|[z d] rest] eqn:Ez; [congruence|]. cbn [fst v_zone].
        apply (HP (z, d)). left. auto. }
      apply IH.
      + lia.
      + left. intros G. rewrite G in ZL. cbn in ZL. lia.
      + intros p Hp. apply P in Hp as [Hp|Hp]; [auto|lia].
  Qed.

  (** The root zone leaves something to do. *)
  Lemma sigs_pushes z sigs s : In s sigs -> rs_ty s = 43 -> supported_alg (rs_alg s) -> forall st st',
    sigs_loop e dbg inp z sigs st = Ok st' -> v_pending st' <> [].
  Proof.
    intros Hs Hd Ha. 
    assert (K : forall l st st', sigs_loop e dbg inp z l st = Ok st' -> v_pending st <> [] -> v_pending st' <> []).
    { induction l as [|x l IH]; intros st st' H N; cbn [sigs_loop] in H; [congruence|].
      apply obind_ok in H as (st1 & H1 & H2). apply IH in H2; auto.
      apply step_pending in H1 as (_ & [P|(_ & _ & d & P)]); rewrite P; [auto|discriminate]. }
    induction sigs as [|x sigs IH]; [contradiction|]. intros st st' H. cbn [sigs_loop] in H.
    apply obind_ok in H as (st1 & H1 & H2). destruct Hs as [->|Hs]; [|eauto]. eapply K; eauto.
    revert H1. unfold sig_step. destruct (negb _); [discriminate|].
    destruct (verify_rrsig e dbg s (zone_dnskeys inp z) (covered inp s)) as [[]|[]| |] eqn:V; try discriminate.
    - cbv zeta. rewrite Hd. cbn [N.eqb orb T_RRSIG T_DNSKEY T_DS]. intros H.
      assert (X : forall a b : vstate, @Ok verr vstate a = Ok b -> b = a) by (intros; congruence).
      apply X in H. subst st1. unfold push_ds. destruct (existsb _ _) eqn:Ex; [|discriminate].
      intros G. rewrite G in Ex. discriminate Ex.
    - exfalso. revert V. unfold verify_rrsig. destruct (existsb _ _); [discriminate|].
      induction (zone_dnskeys inp z) as [|k ks IHk]; cbn [verify_with_keys]; [discriminate|].
      destruct (key_usable s k); [|exact IHk].
      intros V. destruct (signed_records dbg s (sort_by rr_cmp (covered inp s))) as [m|er| |] eqn:M; cbn [obind] in V; try discriminate.
      + revert V. unfold check_sig, supported_alg in *. cbn [In] in Ha. cbv zeta.
        destruct (bytes_to_rsa_pk (dk_pubkey k)) as [[? ?]|];
        destruct Ha as [<-|[<-|[<-|[<-|[<-|[]]]]]]; cbn [N.eqb Pos.eqb orb]; try destruct (e_sig _ _ _ _ _); discriminate.
      + assert (er = UnsupportedAlgorithm) by congruence. subst er. revert M.
        assert (R : forall l, signed_records dbg s l <> Err UnsupportedAlgorithm); [|intros M; eapply R; eauto].
        assert (S1 : forall r, signed_record dbg s r <> Err UnsupportedAlgorithm).
        { intros r. unfold signed_record. cbv zeta.
          destruct (negb _ && negb _); [|cbn [obind]; destruct (dbg && _); discriminate].
          destruct (_ <? _); [discriminate|]. destruct (trailing_n_labels _ _); cbn [obind]; [destruct (dbg && _); discriminate|].
          destruct dbg; discriminate. }
        induction l as [|r l IHl]; cbn [signed_records]; [discriminate|].
        specialize (S1 r). destruct (signed_record dbg s r); cbn [obind]; try congruence.
        destruct (signed_records dbg s l); cbn [obind]; congruence.
  Qed.

  Lemma verify_terminates_n s0 n : ds_sig s0 -> rs_key_name s0 = [46] -> supported_alg (rs_alg s0) -> (weight root_name <= n)%nat ->
    verify_rr_stream e dbg (S n) inp <> Loop.
  Proof.
    intros [Hin Hd] Hk Ha Hn. unfold verify_rr_stream. rewrite obind_loop. intros [H|(? & _ & H)]; [|eapply finish_no_loop; eauto].
    revert H. cbn [zone_loop]. change (bytes_eqb (v_zone vinit) root_name) with true. cbn [orb]. rewrite obind_loop.
    intros [H|(st1 & E & H)]; [eapply zone_step_no_loop; eauto|]. revert H.
    unfold zone_step in E. cbn [pop_zone vinit v_pending v_zone] in E.
    change (bytes_eqb root_name root_name) with true in E. cbv iota in E.
    apply obind_ok in E as (k & _ & E).
    assert (NE : v_pending st1 <> []).
    { eapply (sigs_pushes [46] _ s0); [|exact Hd|exact Ha|exact E]. apply in_zone_rrsigs. split; [exact Hin|].
      split; [exact Hk|]. rewrite Hd. discriminate. }
    apply sigs_total in E as (Z & P & T); [|auto]. apply zone_loop_terminates; [|auto|].
    - unfold total in T at 2. cbn [note_sig v_pending fold_right] in T.
      pose proof (zone_rrsigs_length root_name) as ZL. revert T Hn. generalize (weight root_name), (total st1). intros a b T Hn.
      unfold base in T. set (L := length (rrsigs inp)) in *. set (l := length (zone_rrsigs inp root_name)) in *.
      destruct (Nat.le_gt_cases b n) as [G|G]; [exact G|exfalso].
      assert (l * a <= L * a)%nat by (apply Nat.mul_le_mono_r; exact ZL).
      assert (S L * S a <= S L * b)%nat by (apply Nat.mul_le_mono_l; lia).
      cbn [vinit v_pending fold_right] in T. clearbody L l. nia.
    - intros p Hp. apply P in Hp as [Hp|Hp]; [destruct Hp|]. change (length root_name) with 1%nat in Hp. lia.
  Qed.
  Lemma weight_root : weight root_name = (S (length (rrsigs inp)) ^ 255)%nat.
  Proof. unfold weight, base. f_equal. Qed.
  (** An explicit bound on the number of zones visited. *)
  Lemma verify_terminates s0 n : ds_sig s0 -> rs_key_name s0 = [46] -> supported_alg (rs_alg s0) ->
    (S (length (rrsigs inp)) ^ 255 <= n)%nat -> verify_rr_stream e dbg (S n) inp <> Loop.
  Proof. rewrite <- weight_root. apply verify_terminates_n. Qed.
End Termination.
