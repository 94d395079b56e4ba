(** Proofs for C76. *)
From Verif Require Import Base BaseP NameM WireM RRM NameSpec NameP OrdP RecSpec RecP RecP2 OrdRR OrdM OrdSpec.
From Coq Require Import Permutation Sorted Arith.
Local Open Scope N_scope.

Lemma txt_cmp_eq a b : txt_data_cmp a b = Eq <-> a = b.
Proof.
  rewrite (txt_cmp_pieces _ a b (le_n _)), lcmp_eq. split; [| congruence]. intros H. rewrite <- (txt_pieces_data a), <- (txt_pieces_data b), H. reflexivity.
Qed.
Lemma txt_cmp_opp a b : txt_data_cmp b a = CompOpp (txt_data_cmp a b).
Proof. rewrite (txt_cmp_pieces _ a b (le_n _)), (txt_cmp_pieces _ b a (le_n _)). apply lcmp_antisym. Qed.
Lemma txt_step a b : 255 <= len a -> 255 <= len b ->
  txt_data_cmp a b = then_cmp (bytes_cmp (takeN 255 a) (takeN 255 b)) (txt_data_cmp (dropN 255 a) (dropN 255 b)).
Proof.
  intros Ha Hb. rewrite (txt_cmp_pieces _ a b (le_n _)), (txt_cmp_pieces _ (dropN 255 a) (dropN 255 b) (le_n _)). unfold txt_pieces.
  rewrite !len_dropN, (div_step (len a)), (div_step (len b)) by assumption.
  replace (N.to_nat ((len a - 255) / 255 + 1 + 1)) with (S (N.to_nat ((len a - 255) / 255 + 1))) by lia.
  replace (N.to_nat ((len b - 255) / 255 + 1 + 1)) with (S (N.to_nat ((len b - 255) / 255 + 1))) by lia.
  cbn [pieces]. apply N.ltb_ge in Ha, Hb. rewrite Ha, Hb. cbn [lcmp bytes_cmp]. rewrite N.compare_refl. reflexivity.
Qed.
Lemma txt_short a b : len a < 255 -> len a < len b -> txt_data_cmp a b = Lt.
Proof.
  intros Ha Hb. rewrite (txt_cmp_pieces _ a b (le_n _)). unfold txt_pieces.
  replace (N.to_nat (len a / 255 + 1)) with (S (N.to_nat (len a / 255))) by lia.
  replace (N.to_nat (len b / 255 + 1)) with (S (N.to_nat (len b / 255))) by lia.
  cbn [pieces]. assert (Ea := Ha). apply N.ltb_lt in Ea. rewrite Ea.
  destruct (len b <? 255) eqn:Eb; cbn [lcmp bytes_cmp].
  - rewrite (cmp_lt (len a) (len b)) by assumption. reflexivity.
  - rewrite (cmp_lt (len a) 255) by assumption. reflexivity.
Qed.
Lemma txt_same a b : len a < 255 -> len a = len b -> txt_data_cmp a b = bytes_cmp a b.
Proof.
  intros Ha Hb. rewrite (txt_cmp_pieces _ a b (le_n _)). unfold txt_pieces. rewrite <- Hb.
  replace (N.to_nat (len a / 255 + 1)) with (S (N.to_nat (len a / 255))) by lia.
  cbn [pieces]. rewrite <- Hb. apply N.ltb_lt in Ha. rewrite Ha. cbn [lcmp bytes_cmp]. rewrite N.compare_refl. cbn [then_cmp]. apply then_eq.
Qed.
Lemma bytes_gt a b : bytes_cmp a b = Gt <-> lex N.lt b a.
Proof. rewrite <- bytes_cmp_lex, (bytes_cmp_antisym a b). destruct (bytes_cmp a b); cbn; split; congruence. Qed.

Lemma swapped_exact n : forall x y, (length x <= n)%nat -> (txt_data_cmp x y = Lt /\ bytes_cmp x y = Gt <-> Swapped x y).
Proof.
  induction n as [n IH] using lt_wf_ind. intros x y Hn.
  assert (L : forall l : list N, len l = N.of_nat (length l)) by (intros l; unfold len; reflexivity).
  destruct (N.lt_ge_cases (len x) 255) as [Hx | Hx].
  - split.
    + intros [H1 H2]. exists 0%nat, [], x, y. rewrite L in Hx. split; [reflexivity |]. split; [reflexivity |]. split; [reflexivity |]. split; [lia |]. split; [| apply bytes_gt; exact H2].
      destruct (N.lt_trichotomy (len x) (len y)) as [H | [H | H]]; [rewrite !L in H; lia | |].
      * rewrite txt_same in H1 by (rewrite ?L in *; lia). congruence.
      * rewrite txt_cmp_opp, txt_short in H1 by (rewrite ?L in *; lia). discriminate.
    + intros (k & pre & s & t & -> & -> & Hp & Hs & Hst & Hl). rewrite L, app_length in Hx. assert (k = 0)%nat by lia. subst k. destruct pre; [| discriminate]. cbn [app].
      split; [apply txt_short; rewrite !L; lia | apply bytes_gt; exact Hl].
  - destruct (N.lt_ge_cases (len y) 255) as [Hy | Hy].
    + split.
      * intros [H1 _]. rewrite txt_cmp_opp, txt_short in H1 by lia. discriminate.
      * intros (k & pre & s & t & -> & -> & Hp & Hs & Hst & Hl). rewrite L, app_length in Hx, Hy. lia.
    + assert (EX : x = takeN 255 x ++ dropN 255 x) by (symmetry; apply takeN_dropN). assert (EY : y = takeN 255 y ++ dropN 255 y) by (symmetry; apply takeN_dropN).
      assert (LX : len (takeN 255 x) = 255) by (rewrite len_takeN; lia). assert (LY : len (takeN 255 y) = 255) by (rewrite len_takeN; lia).
      assert (LD : (length (dropN 255 x) < n)%nat). { assert (D := len_dropN 255 x). rewrite !L in D. rewrite L in Hx. lia. }
      specialize (IH _ LD (dropN 255 x) (dropN 255 y) (le_n _)). rewrite txt_step by assumption.
      assert (EB := bytes_cmp_app (takeN 255 x) (takeN 255 y) (dropN 255 x) (dropN 255 y) ltac:(congruence)). rewrite <- EX, <- EY in EB. rewrite EB.
      destruct (bytes_cmp (takeN 255 x) (takeN 255 y)) eqn:C; cbn [then_cmp].
      * apply bytes_cmp_eq in C. rewrite IH. split.
        -- intros (k & pre & s & t & E1 & E2 & Hp & R). exists (Datatypes.S k), (takeN 255 x ++ pre), s, t. rewrite <- !app_assoc. rewrite <- E1. split; [exact EX |]. rewrite C, <- E2. split; [exact EY |].
           split; [| exact R]. rewrite app_length. rewrite L in LY. lia.
        -- intros (k & pre & s & t & E1 & E2 & Hp & R). destruct k as [| k].
           { destruct pre; [| discriminate]. cbn [app] in E1. subst s. rewrite L in Hx. destruct R as (R & _). lia. }
           assert (EP : pre = takeN 255 pre ++ dropN 255 pre) by (symmetry; apply takeN_dropN).
           exists k, (dropN 255 pre), s, t. assert (T : forall z l, z = pre ++ l -> dropN 255 z = dropN 255 pre ++ l).
           { intros z l ->. unfold dropN. rewrite skipn_app. replace (N.to_nat 255 - length pre)%nat with 0%nat by lia. reflexivity. }
           split; [apply T; exact E1 |]. split; [apply T; exact E2 |]. split; [| exact R]. unfold dropN. rewrite skipn_length. lia.
      * split; [intros [_ X]; discriminate |]. intros (k & pre & s & t & E1 & E2 & Hp & R). destruct k as [| k].
        { destruct pre; [| discriminate]. cbn [app] in E1. subst s. rewrite L in Hx. destruct R as (R & _). lia. }
        assert (T : forall z l, z = pre ++ l -> takeN 255 z = takeN 255 pre).
        { intros z l ->. unfold takeN. rewrite firstn_app. replace (N.to_nat 255 - length pre)%nat with 0%nat by lia. cbn [firstn]. apply app_nil_r. }
        rewrite (T x s E1), (T y t E2), bytes_cmp_refl in C. discriminate.
      * split; [intros [X _]; discriminate |]. intros (k & pre & s & t & E1 & E2 & Hp & R). destruct k as [| k].
        { destruct pre; [| discriminate]. cbn [app] in E1. subst s. rewrite L in Hx. destruct R as (R & _). lia. }
        assert (T : forall z l, z = pre ++ l -> takeN 255 z = takeN 255 pre).
        { intros z l ->. unfold takeN. rewrite firstn_app. replace (N.to_nat 255 - length pre)%nat with 0%nat by lia. cbn [firstn]. apply app_nil_r. }
        rewrite (T x s E1), (T y t E2), bytes_cmp_refl in C. discriminate.
Qed.

Lemma total_of {A} (c : A -> A -> comparison) : (forall a b, c a b = Eq <-> a = b) -> (forall a b, c b a = CompOpp (c a b)) ->
  (forall a b d, c a b = Lt -> c b d = Lt -> c a d = Lt) -> TotalOrder c.
Proof.
  intros H1 H2 H3. split; auto. intros a b d [| |] N Hab Hbd; [contradiction | eauto |].
  rewrite (H2 d a). rewrite (H2 b a) in Hab. rewrite (H2 d b) in Hbd. rewrite (H3 d b a); [reflexivity | |].
  - destruct (c d b); cbn in *; congruence.
  - destruct (c b a); cbn in *; congruence.
Qed.
Lemma partial_total : TotalOrder rr_cmp.
Proof. apply total_of; [exact rr_cmp_eq | exact rr_cmp_antisym | exact rr_cmp_trans]. Qed.

(** The key of [Ord]. *)
Definition ord_key (r : RR) : list (list N) := match r with RR_Txt x => [[rr_variant r]; tx_name x; tx_data x] | _ => rr_key r end.
Lemma rr_ord_key a b : rr_ord a b = lcmp (ord_key a) (ord_key b).
Proof.
  destruct a, b; try (apply rr_cmp_key); cbn [rr_ord ord_key rr_variant]; unfold txt_ord, pair_cmp; cbn [lcmp]; rewrite ?cmp1, ?N.compare_refl, ?then_eq; reflexivity.
Qed.
Lemma ord_key_inj a b : ord_key a = ord_key b -> a = b.
Proof.
  destruct a, b; cbn [ord_key]; try (apply rr_key_inj); try (intros H; discriminate H).
  intros H. destruct r, r0. cbn in H. inversion H. reflexivity.
Qed.
Lemma ord_total : TotalOrder rr_ord.
Proof.
  apply total_of.
  - intros a b. rewrite rr_ord_key, lcmp_eq. split; [apply ord_key_inj | congruence].
  - intros a b. rewrite !rr_ord_key. apply lcmp_antisym.
  - intros a b d. rewrite !rr_ord_key. apply lcmp_trans.
Qed.

Lemma orders_differ a b : rr_ord a b <> rr_cmp a b <->
  exists n x y, a = RR_Txt {| tx_name := n; tx_data := x |} /\ b = RR_Txt {| tx_name := n; tx_data := y |} /\ (Swapped x y \/ Swapped y x).
Proof.
  split.
  - destruct a as [ | | |[n x]| | | | | | | | ]; try (intros H; contradiction); destruct b as [ | | |[m y]| | | | | | | | ]; try (intros H; contradiction).
    cbn [rr_ord rr_cmp]. unfold txt_ord, txt_cmp, pair_cmp. cbn [tx_name tx_data]. destruct (bytes_cmp n m) eqn:C; cbn [then_cmp]; try (intros H; contradiction).
    apply bytes_cmp_eq in C. subst m. intros H. exists n, x, y. split; [reflexivity |]. split; [reflexivity |].
    destruct (bytes_cmp x y) eqn:B.
    + apply bytes_cmp_eq in B. subst y. exfalso. apply H. symmetry. apply txt_cmp_eq. reflexivity.
    + right. apply (swapped_exact _ y x (le_n _)). rewrite txt_cmp_opp, (bytes_cmp_antisym x y), B. destruct (txt_data_cmp x y) eqn:T; [| contradiction | auto].
      apply txt_cmp_eq in T. subst y. rewrite bytes_cmp_refl in B. discriminate.
    + left. apply (swapped_exact _ x y (le_n _)). destruct (txt_data_cmp x y) eqn:T; [| auto | contradiction].
      apply txt_cmp_eq in T. subst y. rewrite bytes_cmp_refl in B. discriminate.
  - intros (n & x & y & -> & -> & H). cbn [rr_ord rr_cmp]. unfold txt_ord, txt_cmp, pair_cmp. cbn [tx_name tx_data]. rewrite bytes_cmp_refl. cbn [then_cmp].
    destruct H as [H | H].
    + apply (swapped_exact _ x y (le_n _)) in H as [H1 H2]. rewrite H1, H2. discriminate.
    + apply (swapped_exact _ y x (le_n _)) in H as [H1 H2]. rewrite (txt_cmp_opp y x), (bytes_cmp_antisym y x), H1, H2. discriminate.
Qed.

Lemma insert_agree (c d : RR -> RR -> comparison) x l : (forall y, In y l -> c x y = d x y) -> insert_by c x l = insert_by d x l.
Proof.
  induction l as [| y l IH]; intros H; [reflexivity |]. cbn [insert_by]. rewrite (H y (or_introl eq_refl)), IH; [reflexivity |].
  intros z Hz. apply H. right. exact Hz.
Qed.
Lemma insert_in (c : RR -> RR -> comparison) x l y : In y (insert_by c x l) -> y = x \/ In y l.
Proof.
  induction l as [| z l IH]; cbn [insert_by]; [intros [<- | []]; auto |]. destruct (c x z); cbn [In]; intros H; [intuition congruence | intuition congruence |].
  destruct H as [<- | H]; [auto |]. apply IH in H as [-> | H]; auto.
Qed.
Lemma sort_in (c : RR -> RR -> comparison) l y : In y (sort_by c l) -> In y l.
Proof. induction l as [| x l IH]; cbn [sort_by]; [auto |]. intros H. apply insert_in in H as [-> | H]; [left; reflexivity | right; auto]. Qed.
Lemma sort_agree rs : (forall n x y, In (RR_Txt {| tx_name := n; tx_data := x |}) rs -> In (RR_Txt {| tx_name := n; tx_data := y |}) rs -> ~ Swapped x y) ->
  sort_by rr_ord rs = sort_by rr_cmp rs.
Proof.
  induction rs as [| r rs IH]; intros H; [reflexivity |]. cbn [sort_by]. rewrite IH by (intros n x y Hx Hy; apply (H n); right; assumption).
  apply insert_agree. intros y Hy. apply sort_in in Hy. assert (D : {rr_ord r y = rr_cmp r y} + {rr_ord r y <> rr_cmp r y}) by decide equality. destruct D as [E | E]; [exact E |].
  apply orders_differ in E as (n & a & b & -> & -> & [S | S]); exfalso; [apply (H n a b); [left; reflexivity | right; exact Hy | exact S] | apply (H n b a); [right; exact Hy | left; reflexivity | exact S]].
Qed.
