(** Proofs for Prop_Tie: the proof search finds a denial for every need or for none, in any order. *)
From Verif Require Import Base BaseP NameM WireM RRM SerM ValM NameSpec RecSpec NameP ValSpec OrdP ValP ValP2 ValP3 ValP4 SignedP FuzzP OrderSpec OrderP TieSpec.
From Coq Require Import Permutation.
Local Open Scope N_scope.

(** ** The zone loop does not sort *)
Lemma zone_loop_crypto e e' dbg inp fuel st : SameCrypto e e' -> zone_loop e dbg inp fuel st = zone_loop e' dbg inp fuel st.
Proof.
  intros (A & B & C).
  assert (G : forall a b : env, (forall x, e_sha1 a x = e_sha1 b x) -> (forall x, e_sha256 a x = e_sha256 b x) ->
    (forall al pk m sg, e_sig a al pk m sg = e_sig b al pk m sg) -> ag (zone_loop a dbg inp fuel st) (zone_loop b dbg inp fuel st)).
  { intros a b X Y Z. apply ag_zone_loop; auto. intros s _ keys rs. apply ag_rrsig. intros al pk m H. rewrite <- Z. exact H. }
  destruct (G e e' A B C) as [H | H]; [exact H |].
  destruct (G e' e) as [K | K]; congruence.
Qed.
Lemma proof_loop_crypto e e' res fuel needs : SameCrypto e e' -> proof_loop e res fuel needs = proof_loop e' res fuel needs.
Proof. intros (A & _). apply proof_eq. exact A. Qed.

(** ** One need *)
Definition able (e : env) (res : list RR) (nd : list N * list N * N) : Prop := discharge e res nd [] <> None.
Lemma nsec3_find_in tbl ty : forall ns n m, nsec3_find tbl ty ns = Some (n, m) -> In n ns /\ nsec3_proves tbl ty n = Some m.
Proof.
  induction ns as [| x ns IH]; intros n m; cbn [nsec3_find]; [discriminate |]. destruct (nsec3_proves tbl ty x) eqn:E.
  - intros H. injection H as <- <-. split; [left; reflexivity | exact E].
  - intros H. apply IH in H as [H1 H2]. split; [right; exact H1 | exact H2].
Qed.
Lemma nsec3_find_none tbl ty : forall ns, nsec3_find tbl ty ns = None -> forall n, In n ns -> nsec3_proves tbl ty n = None.
Proof.
  induction ns as [| x ns IH]; cbn [nsec3_find]; intros H n I; [destruct I |]. destruct (nsec3_proves tbl ty x) eqn:E; [discriminate |].
  destruct I as [<- | I]; auto.
Qed.
Lemma nsec3_proves_other tbl ty ty' n m : nsec3_proves tbl ty n = Some m -> m && mask_contains (n3_types n) ty' = false -> nsec3_proves tbl ty' n <> None.
Proof.
  unfold nsec3_proves. destruct (negb (n3_flags n =? 0)); [discriminate |]. destruct (negb (n3_algo n =? 1)); [discriminate |].
  destruct (find _ tbl) as [[[? ?] h]|]; [| discriminate]. cbv zeta. destruct (Base32M.b32_decode _) as [start|]; [| discriminate].
  destruct (_ || _); [discriminate |]. destruct (bytes_eqb start h); cbn [andb orb].
  - destruct (negb (mask_contains (n3_types n) ty) || _); [| discriminate]. intros H. injection H as <-. cbn [andb]. intros ->. cbn [negb orb]. discriminate.
  - destruct (match bytes_cmp start h with Gt => false | _ => true end && _); [| discriminate]. intros _ _. discriminate.
Qed.
Lemma able_some e res nd t : able e res nd <-> discharge e res nd t <> None.
Proof.
  unfold able. destruct nd as [[nm z] ty]. unfold discharge. destruct (find _ _); [split; discriminate |]. cbv zeta. destruct (nsec3_find _ _ _) as [[? ?]|]; [split; discriminate | tauto].
Qed.
(** A need that goes with another one of the same name and zone could have been met on its own. *)
Lemma discharge_drops e res nm z ty t t' : discharge e res (nm, z, ty) t = Some t' ->
  (forall x, In x t' -> In x t) /\ (forall x, In x t -> fst (fst x) = nm -> snd (fst x) = z -> In x t' \/ able e res x) /\
  (forall x, In x t -> fst (fst x) <> nm -> In x t').
Proof.
  unfold discharge. intros H.
  assert (R : forall m types, t' = retain_needs nm m types t ->
    (forall ty', m && mask_contains types ty' = false -> able e res (nm, z, ty')) ->
    (forall x, In x t' -> In x t) /\ (forall x, In x t -> fst (fst x) = nm -> snd (fst x) = z -> In x t' \/ able e res x) /\
    (forall x, In x t -> fst (fst x) <> nm -> In x t')).
  { intros m types -> K. unfold retain_needs. split; [intros x X; apply filter_In in X; tauto |]. split.
    - intros [[nm1 z1] ty1] X E1 E2. cbn [fst snd] in E1, E2. subst. destruct (m && mask_contains types ty1) eqn:M.
      + left. apply filter_In. split; [exact X |]. cbn [fst snd]. rewrite M. apply orb_true_r.
      + right. apply K, M.
    - intros x X Ne. apply filter_In. split; [exact X |]. apply orb_true_iff. left. apply negb_true_iff. destruct (bytes_eqb _ _) eqn:B; [| reflexivity]. apply bytes_eqb_eq in B. contradiction. }
  destruct (find (nsec_proves nm ty) (nsec_search res z)) as [n|] eqn:F.
  - injection H as <-. eapply R; [reflexivity |]. intros ty' M. apply find_some in F as [F1 F2]. unfold able, discharge.
    destruct (find (nsec_proves nm ty') (nsec_search res z)) eqn:F'; [discriminate |]. exfalso.
    apply (find_none _ _ F') in F1. unfold nsec_proves in *. destruct (nsec_matches n nm); cbn [andb orb] in *; [| congruence]. rewrite M in F1. discriminate.
  - cbv zeta in H. destruct (nsec3_find _ ty _) as [[n m]|] eqn:F3; [| discriminate]. injection H as <-. eapply R; [reflexivity |]. intros ty' M.
    apply nsec3_find_in in F3 as [F1 F2]. unfold able, discharge. destruct (find (nsec_proves nm ty') _); [discriminate |]. cbv beta zeta iota.
    destruct (nsec3_find _ ty' _) as [[? ?]|] eqn:F'; [discriminate |]. exfalso. eapply nsec3_proves_other; [exact F2 | exact M |]. eapply nsec3_find_none; eauto.
Qed.

(** ** All of them *)
Definition zoned (needs : list (list N * list N * N)) : Prop := forall x y, In x needs -> In y needs -> fst (fst x) = fst (fst y) -> snd (fst x) = snd (fst y).
Lemma loop_able e res : forall fuel needs, (length needs <= fuel)%nat -> (forall x, In x needs -> able e res x) -> proof_loop e res fuel needs = Ok tt.
Proof.
  induction fuel as [| f IH]; intros [| [[nm z] ty] t] L A; cbn [proof_loop]; try reflexivity; [cbn in L; lia |].
  destruct (discharge e res (nm, z, ty) t) as [t'|] eqn:D.
  - pose proof (discharge_shrinks _ _ _ _ _ D). cbn [length] in L. apply IH; [lia |]. intros x X. apply A. right. apply (proj1 (discharge_drops _ _ _ _ _ _ _ D)), X.
  - exfalso. apply (proj1 (able_some e res _ t) (A _ (or_introl eq_refl)) D).
Qed.
Lemma able_loop e res : forall fuel needs, zoned needs -> proof_loop e res fuel needs = Ok tt -> forall x, In x needs -> able e res x.
Proof.
  induction fuel as [| f IH]; intros [| [[nm z] ty] t] Z O x X; cbn [proof_loop] in O; try contradiction; try discriminate.
  destruct (discharge e res (nm, z, ty) t) as [t'|] eqn:D; [| discriminate]. destruct X as [<- | X]; [apply (able_some e res _ t); congruence |].
  destruct (discharge_drops _ _ _ _ _ _ _ D) as (D1 & D2 & D3). assert (Z' : zoned t') by (intros a b Ia Ib; apply Z; right; auto).
  destruct (list_eq_dec N.eq_dec (fst (fst x)) nm) as [E | E].
  - destruct (D2 x X E) as [G | G]; auto; [| eapply IH; eauto]. apply (Z x (nm, z, ty)); [right; exact X | left; reflexivity | exact E].
  - eapply IH; eauto.
Qed.
Lemma loop_two e res fuel needs : zoned needs -> (length needs <= fuel)%nat ->
  (proof_loop e res fuel needs = Ok tt /\ (forall x, In x needs -> able e res x)) \/
  (proof_loop e res fuel needs = Err Invalid /\ ~ (forall x, In x needs -> able e res x)).
Proof.
  intros Z L. pose proof (proof_loop_no_loop e res fuel needs L). pose proof (proof_loop_panic e res fuel needs).
  destruct (proof_loop e res fuel needs) as [[]| x | |] eqn:E; try congruence.
  - left. split; [reflexivity |]. eapply able_loop; eauto.
  - right. apply proof_loop_err in E as E'. subst x. split; [reflexivity |]. intros A. rewrite (loop_able e res fuel needs L A) in E. discriminate.
Qed.
Lemma loop_same e res res' needs needs' fuel fuel' : zoned needs -> Permutation needs needs' -> (length needs <= fuel)%nat -> (length needs' <= fuel')%nat ->
  (forall x, In x needs -> able e res x <-> able e res' x) -> proof_loop e res fuel needs = proof_loop e res' fuel' needs'.
Proof.
  intros Z P L L' A. assert (I : forall x, In x needs <-> In x needs') by (intros x; split; apply Permutation_in; [exact P | apply Permutation_sym, P]).
  assert (Z' : zoned needs') by (intros a b Ia Ib; apply Z; apply I; assumption).
  destruct (loop_two e res fuel needs Z L) as [[-> H] | [-> H]], (loop_two e res' fuel' needs' Z' L') as [[-> K] | [-> K]]; try reflexivity; exfalso; [apply K | apply H]; intros x X.
  - apply A; [apply I, X |]. apply H, I, X.
  - apply A; [exact X |]. apply K, I, X.
Qed.

(** ** Where the needs come from *)
Lemma need_name dbg s nd : held_sig s -> wildcard_need dbg s = Ok [nd] -> Expanded s /\ snd (fst nd) = rs_key_name s /\ NextCloserOf s (fst (fst nd)).
Proof.
  intros H W. destruct (wildcard_expanded dbg s nd H W) as [A B]. split; [exact A |]. split; [exact B |]. unfold wildcard_need in W.
  destruct (_ && _); [| discriminate]. destruct (rs_ty s =? T_NSEC3); [discriminate |]. destruct (dbg && _); [discriminate |].
  destruct (trailing_n_labels _ _) as [n|] eqn:T; [| discriminate]. injection W as <-. cbn [fst snd].
  destruct (valid_labels (rs_name s)) as (ls & L1 & L2); [apply H |]. rewrite (trailing_of _ _ _ L1 L2) in T.
  destruct (N.of_nat (length ls) <? as_u8 (rs_labels s + 1)) eqn:Q; [discriminate |]. apply N.ltb_ge in Q.
  assert (LB : rs_labels s < 256) by apply H. destruct (N.eq_dec (rs_labels s) 255) as [E | E].
  - right. split; [exact E |]. unfold as_u8 in T. rewrite E in T. change ((255 + 1) mod 256) with 0 in T. injection T as <-. rewrite skipn_all2 by lia. reflexivity.
  - left. unfold as_u8 in *. rewrite N.mod_small in * by lia. injection T as <-.
    set (k := (length ls - N.to_nat (rs_labels s + 1))%nat). destruct (skipn k ls) as [| l suf] eqn:S.
    { apply (f_equal (@length _)) in S. rewrite skipn_length in S. cbn [length] in S. lia. }
    exists (firstn k ls), l, suf. rewrite <- S, firstn_skipn. split; [exact L1 |]. split; [| reflexivity].
    apply (f_equal (@length _)) in S. rewrite skipn_length in S. cbn [length] in S. lia.
Qed.
Lemma needs_zoned dbg inp st : Forall Held inp -> OneSigner inp -> from_sigs dbg inp st -> zoned (v_needs st).
Proof.
  intros HH O (F & _) x y X Y E. destruct (F x X) as (s & S1 & S2), (F y Y) as (s' & S1' & S2'). apply in_rrsigs in S1, S1'.
  apply need_name in S2 as (A & -> & N); [| eapply held_rrsig; eauto]. apply need_name in S2' as (A' & -> & N'); [| eapply held_rrsig; eauto].
  apply (O s s') with (nc := fst (fst x)); auto. rewrite E. exact N'.
Qed.

Lemma ties e e' dbg fuel inp : Forall Held inp -> SameCrypto e e' -> SortsNeeds e -> SortsNeeds e' -> OneSigner inp ->
  verify_rr_stream e dbg fuel inp = verify_rr_stream e' dbg fuel inp.
Proof.
  intros HH C S S' O. unfold verify_rr_stream. rewrite (zone_loop_crypto e e' dbg inp fuel vinit C).
  destruct (zone_loop e' dbg inp fuel vinit) as [st| | |] eqn:E; cbn [obind]; try reflexivity.
  assert (F : from_sigs dbg inp st) by (eapply from_zone_loop; [| exact E]; split; intros ? []).
  unfold finish_verify. destruct (is_nil (v_res st)); [reflexivity |]. destruct (v_expiry st <=? v_inception st); [reflexivity |]. cbv zeta.
  rewrite (proof_loop_crypto e e' _ _ _ C).
  rewrite (loop_same e' (v_res st) (v_res st) (rev (e_sort_needs e (v_needs st))) (rev (e_sort_needs e' (v_needs st))) _ (length (e_sort_needs e' (v_needs st)))); [reflexivity | | | rewrite rev_length; lia .. | reflexivity].
  - assert (Z := needs_zoned dbg inp st HH O F). intros x y X Y. apply in_rev, (Permutation_in _ (Permutation_sym (S _))) in X, Y. apply Z; assumption.
  - eapply Permutation_trans; [apply Permutation_sym, Permutation_rev |]. eapply Permutation_trans; [apply Permutation_sym, S |]. eapply Permutation_trans; [apply S' |]. apply Permutation_rev.
Qed.
