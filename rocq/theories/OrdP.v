(** Proofs about the canonical name order (C17). *)
From Verif Require Import Base NameM NameSpec BaseP ValM NameP.
From Coq Require Import Arith.
Local Open Scope N_scope.

Lemma lex_cons_inv {A} (lt : A -> A -> Prop) x y a b :
  lex lt (x :: a) (y :: b) -> lt x y \/ (x = y /\ lex lt a b).
Proof. intros H. inversion H; subst; auto. Qed.

Lemma bytes_cmp_lex a b : bytes_cmp a b = Lt <-> lex N.lt a b.
Proof.
  revert b. induction a; destruct b; cbn; split; intros H; try discriminate; try (constructor; fail).
  - inversion H.
  - inversion H.
  - destruct (a ?= n) eqn:E; try discriminate.
    + apply N.compare_eq in E. subst. apply lex_later. apply IHa. auto.
    + apply lex_here. exact E.
  - inversion H; subst.
    + replace (a ?= n) with Lt by (symmetry; exact H1). reflexivity.
    + rewrite N.compare_refl. apply IHa. auto.
Qed.

Lemma label_ord_cmp a b : label_ord a b = bytes_cmp (lower a) (lower b).
Proof.
  revert b. induction a; destruct b; cbn; auto.
  change (to_lower a) with (ascii_lower a). change (to_lower n) with (ascii_lower n).
  destruct (ascii_lower a =? ascii_lower n) eqn:E; cbn.
  - apply N.eqb_eq in E. rewrite E, N.compare_refl. apply IHa.
  - apply N.eqb_neq in E. destruct (ascii_lower a ?= ascii_lower n) eqn:F; auto.
    apply N.compare_eq in F. contradiction.
Qed.

Lemma labels_ord_lex a b : labels_ord a b = Lt <-> lex (lex N.lt) (map lower a) (map lower b).
Proof.
  revert b. induction a; destruct b; cbn; split; intros H; try discriminate; try (constructor; fail).
  - inversion H.
  - inversion H.
  - rewrite label_ord_cmp in H. destruct (bytes_cmp (lower a) (lower l)) eqn:E; try discriminate.
    + apply bytes_cmp_eq in E. rewrite E. apply lex_later. apply IHa. auto.
    + apply lex_here. apply bytes_cmp_lex. auto.
  - rewrite label_ord_cmp. apply lex_cons_inv in H as [H|[E H]].
    + replace (bytes_cmp (lower a) (lower l)) with Lt by (symmetry; apply bytes_cmp_lex; auto). reflexivity.
    + rewrite E, bytes_cmp_refl. apply IHa. auto.
Qed.
Lemma labels_ord_antisym a b : labels_ord b a = CompOpp (labels_ord a b).
Proof.
  revert b. induction a; destruct b; cbn; auto. rewrite !label_ord_cmp.
  rewrite (bytes_cmp_antisym (lower a) (lower l)). destruct (bytes_cmp (lower a) (lower l)); cbn; auto.
Qed.
Lemma labels_ord_eq a b : labels_ord a b = Eq <-> map lower a = map lower b.
Proof.
  revert b. induction a; destruct b; cbn; split; intros H; try discriminate; auto.
  - rewrite label_ord_cmp in H. destruct (bytes_cmp (lower a) (lower l)) eqn:E; try discriminate.
    apply bytes_cmp_eq in E. apply IHa in H. congruence.
  - injection H as H1 H2. rewrite label_ord_cmp, H1, bytes_cmp_refl. apply IHa; auto.
Qed.

Lemma lex_trans {A} (lt : A -> A -> Prop) : (forall x y z, lt x y -> lt y z -> lt x z) ->
  forall a b c, lex lt a b -> lex lt b c -> lex lt a c.
Proof.
  intros T a b c H. revert c. induction H; intros c H'; inversion H'; subst; try (constructor; eauto; fail).
Qed.
Lemma lex_irrefl {A} (lt : A -> A -> Prop) : (forall x, ~ lt x x) -> forall a, ~ lex lt a a.
Proof.
  intros T a. induction a; intros H; inversion H; subst; [eapply T; eauto | auto].
Qed.
Lemma lexN_trans : forall a b c, lex N.lt a b -> lex N.lt b c -> lex N.lt a c.
Proof. apply lex_trans. intros x y z ? ?. eapply N.lt_trans; eauto. Qed.

Lemma nsec_ord_antisym a b : nsec_ord b a = CompOpp (nsec_ord a b).
Proof. apply labels_ord_antisym. Qed.
Lemma nsec_ord_trans a b c : nsec_ord a b = Lt -> nsec_ord b c = Lt -> nsec_ord a c = Lt.
Proof.
  unfold nsec_ord. rewrite !labels_ord_lex. apply lex_trans. apply lexN_trans.
Qed.
Lemma map_lower_split s : map lower (split_on 46 s) = split_on 46 (lower s).
Proof.
  assert (H : dots (map lower (split_on 46 s)) = dots (split_on 46 (lower s))).
  { rewrite <- lower_dots, !dots_split. unfold lower. rewrite map_app. reflexivity. }
  apply dots_inj in H; auto.
  - apply nodots_lower. apply split_on_pieces.
  - apply split_on_pieces.
Qed.
Lemma rev_inj {A} (a b : list A) : rev a = rev b -> a = b.
Proof. intros H. rewrite <- (rev_involutive a), H. apply rev_involutive. Qed.
Lemma nsec_ord_eq a b : nsec_ord a b = Eq <-> lower a = lower b.
Proof.
  unfold nsec_ord. rewrite labels_ord_eq, !map_rev. unfold dot. rewrite !map_lower_split. split; intros H.
  - apply rev_inj in H. apply (f_equal (join 46)) in H. rewrite !join_split in H. exact H.
  - rewrite H. reflexivity.
Qed.

Lemma nsec_ord_canonical_lt a b :
  Forall (fun l => l <> [] /\ nodot l) a -> Forall (fun l => l <> [] /\ nodot l) b ->
  (nsec_ord (dotted a) (dotted b) = Lt <-> canonical_lt a b).
Proof.
  intros Ha Hb.
  assert (Na : Forall nodot a) by (eapply Forall_impl; [|exact Ha]; cbn; tauto).
  assert (Nb : Forall nodot b) by (eapply Forall_impl; [|exact Hb]; cbn; tauto).
  unfold nsec_ord, canonical_lt. rewrite <- !map_rev, <- labels_ord_lex. unfold dot.
  destruct a as [|a0 a1], b as [|b0 b1].
  - split; intros H; cbn in H; discriminate.
  - set (b := b0 :: b1) in *. cbn [dotted]. replace (dotted b) with (dots b) by reflexivity.
    rewrite split_dots by auto. rewrite rev_app_distr. cbn [rev app].
    assert (Hne : rev b <> []) by (intros E; apply (f_equal (@length _)) in E; rewrite rev_length in E; discriminate).
    assert (Hlast : forall x, In x (rev b) -> x <> []).
    { intros x Hx. apply in_rev in Hx. rewrite Forall_forall in Hb. apply Hb; auto. }
    destruct (rev b) as [|l r]; [congruence|]. cbn.
    destruct l; [exfalso; apply (Hlast []); cbn; auto|]. cbn. tauto.
  - set (a := a0 :: a1) in *. cbn [dotted]. replace (dotted a) with (dots a) by reflexivity.
    rewrite split_dots by auto. rewrite rev_app_distr. cbn [rev app].
    assert (Hne : rev a <> []) by (intros E; apply (f_equal (@length _)) in E; rewrite rev_length in E; discriminate).
    assert (Hlast : forall x, In x (rev a) -> x <> []).
    { intros x Hx. apply in_rev in Hx. rewrite Forall_forall in Ha. apply Ha; auto. }
    destruct (rev a) as [|l r]; [congruence|]. cbn.
    destruct l; [exfalso; apply (Hlast []); cbn; auto|]. cbn. split; discriminate.
  - change (dotted (a0 :: a1)) with (dots (a0 :: a1)). change (dotted (b0 :: b1)) with (dots (b0 :: b1)).
    rewrite !split_dots by auto. rewrite !rev_app_distr. cbn [rev app]. cbn. tauto.
Qed.

Lemma proper_parts ls : Forall (fun l => l <> [] /\ label_ok l) ls -> Forall (fun l => l <> [] /\ nodot l) ls.
Proof. apply Forall_impl. intros l [H1 H2]. split; auto. apply label_ok_nodot; auto. Qed.

Lemma lower_dotted_inj a b : Forall (fun l => l <> [] /\ nodot l) a -> Forall (fun l => l <> [] /\ nodot l) b ->
  lower (dotted a) = lower (dotted b) -> map lower a = map lower b.
Proof.
  assert (W : forall b, Forall (fun l => l <> [] /\ nodot l) b -> [46] = lower (dotted b) -> b = []).
  { intros c Hc E. destruct c as [|l r]; [reflexivity|]. exfalso. inversion Hc as [|? ? [Hl _] _]; subst.
    apply (f_equal (@length _)) in E. unfold dotted in E. rewrite lower_length, dots_cons, app_length in E.
    destruct l; [congruence|]. cbn in E. lia. }
  intros Ha Hb E. destruct a as [|a0 a1].
  - change (lower (dotted [])) with [46] in E. apply W in E; auto. subst. reflexivity.
  - destruct b as [|b0 b1].
    + symmetry in E. change (lower (dotted [])) with [46] in E. apply W in E; auto. discriminate.
    + set (a := a0 :: a1) in *. set (b := b0 :: b1) in *.
      change (dotted a) with (dots a) in E. change (dotted b) with (dots b) in E.
      rewrite !lower_dots in E. apply dots_inj in E; auto; apply nodots_lower;
        [eapply Forall_impl; [|exact Ha]; cbn; tauto | eapply Forall_impl; [|exact Hb]; cbn; tauto].
Qed.

Lemma nsec_ord_canonical a b :
  Forall (fun l => l <> [] /\ label_ok l) a -> Forall (fun l => l <> [] /\ label_ok l) b ->
  (nsec_ord (dotted a) (dotted b) = Lt <-> canonical_lt a b) /\
  (nsec_ord (dotted a) (dotted b) = Gt <-> canonical_lt b a) /\
  (nsec_ord (dotted a) (dotted b) = Eq <-> map lower a = map lower b).
Proof.
  intros Ha Hb. apply proper_parts in Ha, Hb. repeat split; intros H.
  - apply nsec_ord_canonical_lt; auto.
  - apply nsec_ord_canonical_lt; auto.
  - apply nsec_ord_canonical_lt; auto. rewrite nsec_ord_antisym, H. reflexivity.
  - apply nsec_ord_canonical_lt in H; auto. rewrite nsec_ord_antisym, H. reflexivity.
  - apply nsec_ord_eq in H. apply lower_dotted_inj in H; auto.
  - apply nsec_ord_eq. unfold dotted.
    destruct a as [|a0 a1], b as [|b0 b1]; try discriminate; [reflexivity|].
    rewrite !lower_dots. congruence.
Qed.
