(** The denial of existence in both directions, and the verdict as a whole (for C60). *)
From Verif Require Import Base BaseP NameM WireM RRM Base32M ValM NameSpec NameP RecSpec CodecSpec CodecP OrdP ValSpec ValP ValP2 ValP3 ValP4 ValP5 DupP AcceptSpec AcceptP AcceptP2.
From Coq Require Import Permutation Arith.
Local Open Scope N_scope.

Lemma nsec_proves_iff n nm ty : valid_name (ns_name n) -> valid_name (ns_next n) -> valid_name nm ->
  (nsec_proves nm ty n = true <-> nsec_weak n nm ty).
Proof.
  intros H1 H2 H3. split; [apply nsec_proves_spec; assumption |]. intros H. unfold nsec_proves. apply orb_true_iff. destruct H as [[Ha Hb] | [Ha Hb]].
  - left. unfold nsec_matches. rewrite Ha, bytes_eqb_refl. cbn [andb]. rewrite <- has_type_spec in Hb. apply negb_true_iff. apply not_true_iff_false. exact Hb.
  - right. unfold nsec_contained. destruct (nsec_ord_names (ns_name n) nm H1 H3) as [L1 E1]. destruct (nsec_ord_names nm (ns_next n) H3 H2) as [L2 _].
    apply L2 in Hb. rewrite (nsec_ord_antisym nm (ns_next n)), Hb. cbn [CompOpp]. rewrite andb_true_r.
    destruct Ha as [Ha | Ha]; [apply E1 in Ha | apply L1 in Ha]; rewrite Ha; reflexivity.
Qed.

Lemma n3_owner_unique n h h' a b : is_bytes a -> split_once dot (n3_name n) = Some (a, b) -> n3_owner_hash n h -> b32_decode a = Some h' -> h' = h.
Proof.
  intros B E (l & ls & H1 & H2 & H3 & _) D. apply split_once_spec in E as [E1 E2]. rewrite dots_cons in H1.
  assert (S1 : split_once dot (n3_name n) = Some (a, b)) by (apply split_once_spec; auto).
  assert (S2 : split_once dot (n3_name n) = Some (l, dots ls)) by (apply split_once_spec; rewrite H1; auto).
  assert (a = l) by congruence. subst l. apply decode_spec in H3; [congruence | exact B].
Qed.

Lemma nsec3_proves_conv e nm tbl ty n : Held (RR_NSec3 n) -> In (n3_iters n, n3_salt n, nsec3_hash e nm (n3_salt n) (n3_iters n)) tbl ->
  (forall it salt h, In (it, salt, h) tbl -> h = nsec3_hash e nm salt it) ->
  nsec3_weak e n nm ty -> nsec3_proves tbl ty n <> None.
Proof.
  intros Hh Hin Hall (h & nh & (R1 & R2 & R3 & (l & ls & O1 & O2 & O3 & O4) & R5 & R6) & D).
  assert (Hv := held_name _ Hh). cbn [rr_name] in Hv. unfold nsec3_proves.
  rewrite R2, R1. cbn [N.eqb Pos.eqb negb].
  destruct (find (n3_params_eqb n) tbl) as [[[it salt] h0]|] eqn:Efi.
  2:{ exfalso. pose proof (find_none _ _ Efi _ Hin) as G. unfold n3_params_eqb in G. cbn [fst snd] in G. rewrite N.eqb_refl, bytes_eqb_refl in G. discriminate. }
  apply find_some in Efi as [F1 F2]. unfold n3_params_eqb in F2. cbn [fst snd] in F2.
  apply andb_true_iff in F2 as [F2 F3]. apply N.eqb_eq in F2. apply bytes_eqb_eq in F3. subst it salt.
  assert (h0 = nh). { rewrite R5, <- nsec3_hash_spec. apply Hall. exact F1. } subst h0.
  assert (S2 : split_once dot (n3_name n) = Some (l, dots ls)) by (apply split_once_spec; rewrite O1, dots_cons; auto).
  cbv zeta. rewrite S2.
  assert (HB : is_bytes l).
  { apply valid_name_spec in Hv as [(ls' & L1 & L2 & L3 & _) _]. apply Forall_forall. intros c Hc.
    assert (Hc' : In c (dots ls')) by (rewrite <- L2, O1, dots_cons; apply in_app_iff; auto).
    assert (G : Forall (fun x => x < 256) (dots ls')).
    { apply forall_dots. split; [|intros _; reflexivity]. eapply Forall_impl; [|exact L3].
      intros x [_ Hl]. eapply Forall_impl; [|exact Hl]. intros y [Hy _]. lia. }
    eapply Forall_forall in G; eauto. }
  apply decode_spec in O3; [| exact HB]. rewrite O3. change (length_of h) with (len h) in O4. change (length_of (n3_next_hash n)) with (len (n3_next_hash n)) in R6.
  rewrite O4, R6. cbn [N.eqb Pos.eqb negb orb].
  assert (G : bytes_eqb h nh && negb (mask_contains (n3_types n) ty)
    || match bytes_cmp h nh with Gt => false | _ => true end && match bytes_cmp (n3_next_hash n) nh with Gt => true | _ => false end = true); [| rewrite G; discriminate].
  apply orb_true_iff. destruct D as [[-> Ht] | [Hl Hn]].
  - left. rewrite bytes_eqb_refl. cbn [andb]. apply negb_true_iff, not_true_iff_false. rewrite has_type_spec. exact Ht.
  - right. apply bytes_cmp_lex in Hn. rewrite (bytes_cmp_antisym nh (n3_next_hash n)), Hn. cbn [CompOpp]. rewrite andb_true_r.
    destruct Hl as [-> | Hl]; [rewrite bytes_cmp_refl; reflexivity |]. apply bytes_cmp_lex in Hl. rewrite Hl. reflexivity.
Qed.

(** The table is complete when there are at most two parameter sets. *)
Definition par (n : nsec3) : N * list N := (n3_iters n, n3_salt n).
Lemma table_complete e nm p q : forall ns tbl, (forall n, In n ns -> n3_algo n = 1 -> n3_iters n <= 2500 -> par n = p \/ par n = q) ->
  (length tbl <= 1)%nat -> (forall it salt h, In (it, salt, h) tbl -> (it, salt) = p \/ (it, salt) = q) ->
  (forall it salt h, In (it, salt, h) tbl -> h = nsec3_hash e nm salt it) ->
  (forall x, In x tbl -> In x (nsec3_table e nm ns tbl)) /\
  forall n, In n ns -> n3_algo n = 1 -> n3_iters n <= 2500 -> In (n3_iters n, n3_salt n, nsec3_hash e nm (n3_salt n) (n3_iters n)) (nsec3_table e nm ns tbl).
Proof.
  induction ns as [| x ns IH]; intros tbl Hp Hl Ht Hh; cbn [nsec3_table]; [split; [auto | intros n []] |].
  assert (Hp' : forall n, In n ns -> n3_algo n = 1 -> n3_iters n <= 2500 -> par n = p \/ par n = q) by (intros n Hn; apply Hp; right; exact Hn).
  destruct (2500 <? n3_iters x) eqn:E1.
  { apply N.ltb_lt in E1. destruct (IH tbl Hp' Hl Ht Hh) as [I1 I2]. split; [exact I1 |]. intros n [<- | Hn]; [intros; lia | apply I2; exact Hn]. }
  apply N.ltb_ge in E1. destruct (n3_algo x =? 1) eqn:E2; cbn [negb].
  2:{ apply N.eqb_neq in E2. destruct (IH tbl Hp' Hl Ht Hh) as [I1 I2]. split; [exact I1 |]. intros n [<- | Hn]; [intros; contradiction | apply I2; exact Hn]. }
  apply N.eqb_eq in E2. destruct (existsb (n3_params_eqb x) tbl) eqn:E3.
  { destruct (IH tbl Hp' Hl Ht Hh) as [I1 I2]. split; [exact I1 |]. intros n [<- | Hn]; [| apply I2; exact Hn]. intros _ _.
    apply existsb_exists in E3 as ([[it salt] h] & X1 & X2). unfold n3_params_eqb in X2. cbn [fst snd] in X2. apply andb_true_iff in X2 as [X2 X3].
    apply N.eqb_eq in X2. apply bytes_eqb_eq in X3. subst it salt. rewrite <- (Hh _ _ _ X1). apply I1. exact X1. }
  cbv zeta. set (t := (n3_iters x, n3_salt x, nsec3_hash e nm (n3_salt x) (n3_iters x))).
  assert (PX := Hp x (or_introl eq_refl) E2 E1).
  assert (Ht' : forall it salt h, In (it, salt, h) (tbl ++ [t]) -> (it, salt) = p \/ (it, salt) = q).
  { intros it salt h Hi. apply in_app_or in Hi as [Hi | [Hi | []]]; [eapply Ht; eauto |]. unfold par in PX. inversion Hi; subst. exact PX. }
  assert (Hh' : forall it salt h, In (it, salt, h) (tbl ++ [t]) -> h = nsec3_hash e nm salt it).
  { intros it salt h Hi. apply in_app_or in Hi as [Hi | [Hi | []]]; [eapply Hh; eauto |]. inversion Hi; subst. reflexivity. }
  destruct (2 <=? len (tbl ++ [t])) eqn:E4.
  - split; [intros y Hy; apply in_or_app; left; exact Hy |]. intros n Hn A I.
    assert (PN := Hp n Hn A I). apply N.leb_le in E4. unfold len in E4. rewrite app_length in E4. cbn [length] in E4.
    destruct tbl as [| [[it salt] h] [| ? ?]]; cbn [length] in E4, Hl; try lia.
    assert (PT := Ht it salt h (or_introl eq_refl)). assert (HT := Hh it salt h (or_introl eq_refl)).
    cbn [existsb] in E3. rewrite orb_false_r in E3. unfold n3_params_eqb in E3. cbn [fst snd] in E3.
    assert (NX : (it, salt) <> par x).
    { unfold par. intros EQ. inversion EQ; subst. rewrite N.eqb_refl, bytes_eqb_refl in E3. discriminate. }
    assert (C : par n = (it, salt) \/ par n = par x) by (destruct PX, PT, PN; intuition congruence).
    destruct C as [C | C]; unfold par in C; inversion C; subst; [left | right; left]; reflexivity || (unfold t; congruence).
  - assert (Hl' : (length (tbl ++ [t]) <= 1)%nat) by (apply N.leb_gt in E4; unfold len in E4; lia).
    destruct (IH (tbl ++ [t]) Hp' Hl' Ht' Hh') as [I1 I2]. split; [intros y Hy; apply I1; apply in_or_app; left; exact Hy |].
    intros n [<- | Hn]; [| apply I2; exact Hn]. intros _ _. apply I1. apply in_or_app. right. left. reflexivity.
Qed.

(** ** One need under its zone *)
Definition DischargedAt (e : env) (res : list RR) (z nm : list N) (ty : N) : Prop :=
  (exists n p, In (RR_NSec n) res /\ ns_name n = p ++ z /\ nsec_weak n nm ty) \/
  (exists n p, In (RR_NSec3 n) res /\ n3_name n = p ++ z /\ nsec3_weak e n nm ty).

Lemma in_nsec_search_iff res z n : In n (nsec_search res z) <-> In (RR_NSec n) res /\ exists p, ns_name n = p ++ z.
Proof.
  unfold nsec_search. rewrite filter_In, in_flat_map, ends_with_spec. split; intros [H1 H2]; split; auto.
  - destruct H1 as (r & A & B). destruct r as [a|a|a|a|a|a|a|a|a|a|a|a]; cbn in B; try contradiction. destruct B as [-> | []]; auto.
  - exists (RR_NSec n). split; [exact H1 | left; reflexivity].
Qed.
Lemma in_nsec3_search_iff res z n : In n (nsec3_search res z) <-> In (RR_NSec3 n) res /\ exists p, n3_name n = p ++ z.
Proof.
  unfold nsec3_search. rewrite filter_In, in_flat_map, ends_with_spec. split; intros [H1 H2]; split; auto.
  - destruct H1 as (r & A & B). destruct r as [a|a|a|a|a|a|a|a|a|a|a|a]; cbn in B; try contradiction. destruct B as [-> | []]; auto.
  - exists (RR_NSec3 n). split; [exact H1 | left; reflexivity].
Qed.

Lemma nsec3_find_some tbl ty ns n : In n ns -> nsec3_proves tbl ty n <> None -> nsec3_find tbl ty ns <> None.
Proof.
  induction ns as [| x ns IH]; cbn [nsec3_find]; [intros [] |]. intros [-> | Hn] H.
  - destruct (nsec3_proves tbl ty n); congruence.
  - destruct (nsec3_proves tbl ty x); [discriminate | apply IH; assumption].
Qed.

Lemma discharge_at e res nm z ty needs needs' : Forall Held res -> valid_name nm ->
  discharge e res (nm, z, ty) needs = Some needs' ->
  DischargedAt e res z nm ty /\ (forall nd, In nd needs -> In nd needs' \/ (fst (fst nd) = nm /\ DischargedAt e res z nm (snd nd))) /\
  (forall nd, In nd needs' -> In nd needs).
Proof.
  intros Hh Hv. unfold discharge. rewrite Forall_forall in Hh.
  assert (RT : forall m types P, (forall ty', (m = false \/ ~ has_type types ty') -> DischargedAt e res z nm ty') -> P = retain_needs nm m types needs ->
     (forall nd, In nd needs -> In nd P \/ (fst (fst nd) = nm /\ DischargedAt e res z nm (snd nd))) /\ (forall nd, In nd P -> In nd needs)).
  { intros m types P HP ->. unfold retain_needs. split.
    - intros nd Hn. rewrite filter_In.
      destruct (negb (bytes_eqb (fst (fst nd)) nm) || (m && mask_contains types (snd nd))) eqn:E; [left; auto|right].
      apply orb_false_iff in E as [E1 E2]. apply negb_false_iff, bytes_eqb_eq in E1. split; auto.
      apply HP. destruct m; auto. right. cbn [andb] in E2. rewrite <- has_type_spec. congruence.
    - intros nd Hn. apply filter_In in Hn. tauto. }
  destruct (find (nsec_proves nm ty) (nsec_search res z)) as [n|] eqn:Ef.
  - apply find_some in Ef as [F1 F2]. apply in_nsec_search_iff in F1 as [F1 (p & FP)].
    assert (Hn := Hh _ F1). assert (V1 := held_name _ Hn). cbn [rr_name] in V1.
    assert (V2 : valid_name (ns_next n)) by (unfold Held in Hn; cbn [typed_rr] in Hn; apply Hn).
    assert (W : forall ty', nsec_proves nm ty' n = true -> DischargedAt e res z nm ty').
    { intros ty' H. left. exists n, p. split; [exact F1 |]. split; [exact FP |]. apply nsec_proves_spec; auto. }
    intros H. split; [apply W; auto|].
    eapply RT; [|symmetry; injection H; intros X; exact X].
    intros ty' Hm. apply W. unfold nsec_proves in *. apply orb_true_iff.
    destruct (nsec_contained n nm); [right; auto|left]. rewrite orb_false_r in F2.
    apply andb_true_iff in F2 as [F2 _]. rewrite F2. cbn [andb].
    destruct Hm as [Hm|Hm]; [congruence|]. rewrite <- has_type_spec in Hm.
    destruct (mask_contains (ns_types n) ty'); [exfalso; auto|reflexivity].
  - cbv zeta. destruct (nsec3_find _ ty (nsec3_search res z)) as [[n m]|] eqn:E3; [|discriminate].
    apply nsec3_find_spec in E3 as [F1 F2]. apply in_nsec3_search_iff in F1 as [F1 (p & FP)]. assert (Hn := Hh _ F1).
    apply nsec3_proves_spec in F2 as (h & nh & R & M & P); auto.
    intros H. split.
    { right. exists n, p. split; [exact F1 |]. split; [exact FP |]. exists h, nh. auto. }
    eapply RT; [|symmetry; injection H; intros X; exact X].
    intros ty' Hm. right. exists n, p. split; [exact F1 |]. split; [exact FP |]. exists h, nh. split; auto.
    destruct Hm as [Hm|Hm].
    + right. destruct P as [[P _]|P]; auto. exfalso. apply M in P. congruence.
    + destruct P as [[P _]|P]; auto.
Qed.

Definition two_params (res : list RR) (z : list N) : Prop := exists p q : N * list N, forall n pre, In (RR_NSec3 n) res -> n3_name n = pre ++ z -> n3_algo n = 1 -> n3_iters n <= 2500 -> par n = p \/ par n = q.

Lemma discharge_conv e res nm z ty needs : Forall Held res -> two_params res z -> valid_name nm -> DischargedAt e res z nm ty -> discharge e res (nm, z, ty) needs <> None.
Proof.
  intros Hh (p & q & Hp) Hv D. unfold discharge. rewrite Forall_forall in Hh. destruct (find (nsec_proves nm ty) (nsec_search res z)) as [n|] eqn:Ef; [discriminate |].
  destruct D as [(n & pp & D1 & D2 & D3) | (n & pp & D1 & D2 & D3)].
  - exfalso. assert (HN := Hh _ D1). assert (V1 := held_name _ HN). cbn [rr_name] in V1.
    assert (V2 : valid_name (ns_next n)) by (unfold Held in HN; cbn [typed_rr] in HN; apply HN).
    apply nsec_proves_iff in D3; auto. rewrite (find_none _ _ Ef n) in D3; [discriminate |]. apply in_nsec_search_iff. eauto.
  - cbv zeta. assert (HI : In n (nsec3_search res z)) by (apply in_nsec3_search_iff; eauto).
    assert (HP : forall m, In m (nsec3_search res z) -> n3_algo m = 1 -> n3_iters m <= 2500 -> par m = p \/ par m = q).
    { intros m Hm. apply in_nsec3_search_iff in Hm as [Hm (pre & Hn)]. apply (Hp m pre); assumption. }
    assert (D3' := D3). destruct D3' as (h & nh & (R1 & _ & R3 & _) & _).
    destruct (table_complete e nm p q (nsec3_search res z) [] HP) as [_ T]; [cbn; lia | intros ? ? ? [] .. |].
    assert (G : nsec3_proves (nsec3_table e nm (nsec3_search res z) []) ty n <> None).
    { eapply nsec3_proves_conv; eauto. intros it salt h' Hin. eapply nsec3_table_spec; [| exact Hin]. intros ? ? ? []. }
    pose proof (nsec3_find_some _ ty _ n HI G) as K. destruct (nsec3_find _ ty (nsec3_search res z)) as [[? ?]|]; congruence.
Qed.

Lemma proof_loop_all e res : Forall Held res -> forall fuel needs, (length needs <= fuel)%nat ->
  (forall nm z ty, In (nm, z, ty) needs -> valid_name nm /\ two_params res z /\ DischargedAt e res z nm ty) -> proof_loop e res fuel needs = Ok tt.
Proof.
  intros Hh. induction fuel as [| f IH]; intros [| [[nm z] ty] t] L F; cbn [proof_loop]; try reflexivity; [cbn in L; lia |].
  destruct (F nm z ty (or_introl eq_refl)) as (V & Ht & D). destruct (discharge e res (nm, z, ty) t) as [t'|] eqn:E; [| exfalso; eapply discharge_conv; eauto].
  pose proof (discharge_shrinks _ _ _ _ _ E) as L'. cbn [length] in L. apply IH; [lia |]. intros nm' z' ty' Hn. apply F. right.
  destruct (discharge_at _ _ _ _ _ _ _ Hh V E) as (_ & _ & G). apply G. exact Hn.
Qed.

Lemma proof_loop_only e res : Forall Held res -> forall fuel needs, (forall nm z ty, In (nm, z, ty) needs -> valid_name nm) ->
  (forall nm z z' ty ty', In (nm, z, ty) needs -> In (nm, z', ty') needs -> z = z') ->
  proof_loop e res fuel needs = Ok tt -> forall nm z ty, In (nm, z, ty) needs -> DischargedAt e res z nm ty.
Proof.
  intros Hh. induction fuel as [| f IH]; intros [| [[nm0 z0] ty0] t] V Z H nm z ty Hn; cbn [proof_loop] in H; try contradiction; try discriminate.
  destruct (discharge e res (nm0, z0, ty0) t) as [t'|] eqn:E; [| discriminate].
  destruct (discharge_at _ _ _ _ _ _ _ Hh (V _ _ _ (or_introl eq_refl)) E) as (D1 & D2 & D3).
  destruct Hn as [Hn | Hn]; [inversion Hn; subst; exact D1 |]. destruct (D2 _ Hn) as [G | [G1 G2]].
  - eapply (IH t'); eauto.
    + intros a b c Hc. eapply V. right. apply D3. exact Hc.
    + intros a b b' c c' Hc Hc'. eapply Z; right; apply D3; eassumption.
  - cbn [fst snd] in G1, G2. subst nm0. rewrite (Z nm z z0 ty ty0); [exact G2 | right; exact Hn | left; reflexivity].
Qed.
