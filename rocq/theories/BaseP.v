(** Basic lemmas about the vocabulary of [Base.v] and the std string functions of [NameM.v]. *)
From Verif Require Import Base NameM.
From Coq Require Import Arith Permutation Sorted.
Local Open Scope N_scope.

Lemma len_app {A} (a b : list A) : len (a ++ b) = len a + len b.
Proof. unfold len. rewrite app_length. lia. Qed.
Lemma len_cons {A} (x : A) l : len (x :: l) = 1 + len l.
Proof. unfold len. cbn [List.length]. lia. Qed.
Lemma len_nil {A} : len (@nil A) = 0.
Proof. reflexivity. Qed.
Lemma len_length {A} (l : list A) : N.to_nat (len l) = List.length l.
Proof. unfold len. lia. Qed.
Lemma len_repeat {A} (x : A) n : len (repeat x n) = N.of_nat n.
Proof. unfold len. rewrite repeat_length. reflexivity. Qed.
Lemma len_map {A B} (f : A -> B) l : len (map f l) = len l.
Proof. unfold len. rewrite map_length. reflexivity. Qed.
Lemma len_rev {A} (l : list A) : len (rev l) = len l.
Proof. unfold len. rewrite rev_length. reflexivity. Qed.
Lemma len_0_nil {A} (l : list A) : len l = 0 -> l = [].
Proof. destruct l; [reflexivity|]. rewrite len_cons. lia. Qed.

Lemma takeN_app_len {A} (a b : list A) : takeN (len a) (a ++ b) = a.
Proof.
  unfold takeN. rewrite len_length.
  rewrite firstn_app, Nat.sub_diag, firstn_O, firstn_all, app_nil_r. reflexivity.
Qed.
Lemma dropN_app_len {A} (a b : list A) : dropN (len a) (a ++ b) = b.
Proof.
  unfold dropN. rewrite len_length.
  rewrite skipn_app, Nat.sub_diag, skipn_all, skipn_O. reflexivity.
Qed.
Lemma takeN_app {A} n (a b : list A) : n = len a -> takeN n (a ++ b) = a.
Proof. intros ->. apply takeN_app_len. Qed.
Lemma dropN_app {A} n (a b : list A) : n = len a -> dropN n (a ++ b) = b.
Proof. intros ->. apply dropN_app_len. Qed.
Lemma takeN_dropN {A} n (l : list A) : takeN n l ++ dropN n l = l.
Proof. apply firstn_skipn. Qed.
Lemma len_takeN {A} n (l : list A) : n <= len l -> len (takeN n l) = n.
Proof. unfold len, takeN. intros. rewrite firstn_length. lia. Qed.
Lemma len_takeN_min {A} n (l : list A) : len (takeN n l) = N.min n (len l).
Proof. unfold len, takeN. rewrite firstn_length. lia. Qed.
Lemma len_dropN {A} n (l : list A) : len (dropN n l) = len l - n.
Proof. unfold len, dropN. rewrite skipn_length. lia. Qed.
Lemma takeN_all {A} n (l : list A) : len l <= n -> takeN n l = l.
Proof. unfold len, takeN. intros. apply firstn_all2. lia. Qed.
Lemma dropN_all {A} n (l : list A) : len l <= n -> dropN n l = [].
Proof. unfold len, dropN. intros. apply skipn_all2. lia. Qed.
Lemma takeN_0 {A} (l : list A) : takeN 0 l = [].
Proof. reflexivity. Qed.
Lemma dropN_0 {A} (l : list A) : dropN 0 l = l.
Proof. reflexivity. Qed.
Lemma takeN_takeN {A} n m (l : list A) : takeN n (takeN m l) = takeN (N.min n m) l.
Proof. unfold takeN. rewrite firstn_firstn. f_equal. lia. Qed.
Lemma skipn_skipn' {A} (a b : nat) (l : list A) : skipn a (skipn b l) = skipn (b + a) l.
Proof.
  revert l. induction b; intros; cbn [Nat.add]; [reflexivity|].
  destruct l; cbn [skipn]; [destruct a; reflexivity|]. apply IHb.
Qed.
Lemma dropN_dropN {A} n m (l : list A) : dropN n (dropN m l) = dropN (m + n) l.
Proof. unfold dropN. rewrite skipn_skipn'. f_equal. lia. Qed.

(** Splitting a list at a position. *)
Lemma split_at {A} n (l : list A) : n <= len l -> exists a b, l = a ++ b /\ len a = n.
Proof.
  intros. exists (takeN n l), (dropN n l). split; [symmetry; apply takeN_dropN|]. apply len_takeN; auto.
Qed.

Lemma app_inv_len {A} (a b c d : list A) : a ++ b = c ++ d -> len a = len c -> a = c /\ b = d.
Proof.
  intros H L. assert (a = c).
  { rewrite <- (takeN_app_len a b), H, L. apply takeN_app_len. }
  subst. split; [reflexivity|]. eapply app_inv_head; eauto.
Qed.

Lemma bytes_eqb_eq a b : bytes_eqb a b = true <-> a = b.
Proof.
  revert b. induction a; destruct b; cbn; split; intros; try discriminate; auto.
  - apply andb_true_iff in H as [H1 H2]. apply N.eqb_eq in H1. apply IHa in H2. congruence.
  - injection H as -> ->. rewrite N.eqb_refl. cbn. apply IHa. reflexivity.
Qed.
Lemma bytes_eqb_refl a : bytes_eqb a a = true.
Proof. apply bytes_eqb_eq. reflexivity. Qed.
Lemma bytes_eqb_neq a b : bytes_eqb a b = false <-> a <> b.
Proof.
  destruct (bytes_eqb a b) eqn:E.
  - apply bytes_eqb_eq in E. split; intros; congruence.
  - split; auto. intros _ ->. rewrite bytes_eqb_refl in E. discriminate.
Qed.
Lemma bytes_eqb_sym a b : bytes_eqb a b = bytes_eqb b a.
Proof.
  destruct (bytes_eqb b a) eqn:E.
  - apply bytes_eqb_eq in E. subst. apply bytes_eqb_refl.
  - apply bytes_eqb_neq. apply bytes_eqb_neq in E. congruence.
Qed.

Lemma bytes_cmp_eq a b : bytes_cmp a b = Eq <-> a = b.
Proof.
  revert b. induction a; destruct b; cbn; split; intros; try discriminate; auto.
  - destruct (a ?= n) eqn:E; try discriminate. apply N.compare_eq in E. apply IHa in H. congruence.
  - injection H as -> ->. rewrite N.compare_refl. apply IHa. reflexivity.
Qed.
Lemma bytes_cmp_refl a : bytes_cmp a a = Eq.
Proof. apply bytes_cmp_eq. reflexivity. Qed.
Lemma bytes_cmp_antisym a b : bytes_cmp b a = CompOpp (bytes_cmp a b).
Proof.
  revert b. induction a; destruct b; cbn; auto.
  rewrite (N.compare_antisym a n). destruct (a ?= n); cbn; auto.
Qed.
Lemma bytes_cmp_lt_trans a b c : bytes_cmp a b = Lt -> bytes_cmp b c = Lt -> bytes_cmp a c = Lt.
Proof.
  revert b c. induction a; destruct b, c; cbn; intros; try discriminate; auto.
  destruct (a ?= n) eqn:E1; try discriminate; destruct (n ?= n0) eqn:E2; try discriminate.
  - apply N.compare_eq in E1, E2. subst. rewrite N.compare_refl. eauto.
  - apply N.compare_eq in E1. subst. rewrite E2. reflexivity.
  - apply N.compare_eq in E2. subst. rewrite E1. reflexivity.
  - apply -> N.compare_lt_iff in E1. apply -> N.compare_lt_iff in E2.
    assert (E3 : a < n0) by (eapply N.lt_trans; eauto).
    apply N.compare_lt_iff in E3. rewrite E3. reflexivity.
Qed.

Lemma bytes_ok_app a b : bytes_ok (a ++ b) = bytes_ok a && bytes_ok b.
Proof. unfold bytes_ok. apply forallb_app. Qed.
Lemma bytes_ok_forall l : bytes_ok l = true <-> Forall (fun b => b < 256) l.
Proof.
  unfold bytes_ok. rewrite forallb_forall, Forall_forall. unfold byte_ok.
  split; intros H x Hx; specialize (H x Hx); apply N.ltb_lt in H || apply N.ltb_lt; auto.
Qed.
Lemma bytes_ok_takeN n l : bytes_ok l = true -> bytes_ok (takeN n l) = true.
Proof.
  intros H. rewrite <- (takeN_dropN n l), bytes_ok_app in H. apply andb_true_iff in H. tauto.
Qed.
Lemma bytes_ok_dropN n l : bytes_ok l = true -> bytes_ok (dropN n l) = true.
Proof.
  intros H. rewrite <- (takeN_dropN n l), bytes_ok_app in H. apply andb_true_iff in H. tauto.
Qed.

Lemma as_u8_small n : n < 256 -> as_u8 n = n.
Proof. apply N.mod_small. Qed.
Lemma as_u16_small n : n < 65536 -> as_u16 n = n.
Proof. apply N.mod_small. Qed.
Lemma be16_ok n : bytes_ok (be16 n) = true.
Proof.
  apply bytes_ok_forall. repeat constructor; apply N.mod_lt; discriminate.
Qed.
Lemma be32_ok n : bytes_ok (be32 n) = true.
Proof.
  apply bytes_ok_forall. repeat constructor; apply N.mod_lt; discriminate.
Qed.
Lemma len_be16 n : len (be16 n) = 2.
Proof. reflexivity. Qed.
Lemma len_be32 n : len (be32 n) = 4.
Proof. reflexivity. Qed.

Lemma existsb_false {A} (f : A -> bool) l : existsb f l = false <-> forall x, In x l -> f x = false.
Proof.
  induction l; cbn; split; intros; auto.
  - contradiction.
  - apply orb_false_iff in H as [H1 H2]. destruct H0 as [->|H0]; auto. apply IHl; auto.
  - apply orb_false_iff. split; [apply H; auto|]. apply IHl. intros. apply H; auto.
Qed.

Lemma is_nil_true {A} (l : list A) : is_nil l = true <-> l = [].
Proof. destruct l; cbn; split; intros; congruence. Qed.
Lemma is_nil_false {A} (l : list A) : is_nil l = false <-> l <> [].
Proof. destruct l; cbn; split; intros; try congruence; auto. Qed.

(** [obind] inversion. *)
Lemma obind_ok {E A B} (m : outcome E A) (k : A -> outcome E B) b :
  obind m k = Ok b <-> exists a, m = Ok a /\ k a = Ok b.
Proof.
  destruct m; cbn; split; intros H; try discriminate; eauto.
  - destruct H as (x & H1 & H2). congruence.
  - destruct H as (x & H1 & H2). discriminate.
  - destruct H as (x & H1 & H2). discriminate.
  - destruct H as (x & H1 & H2). discriminate.
Qed.

(** ** Splitting strings *)

Lemma split_on_nonnil sep s : split_on sep s <> [].
Proof.
  destruct s; cbn; [congruence|]. destruct (n =? sep); [congruence|].
  destruct (split_on sep s); congruence.
Qed.

Lemma split_on_nosep sep s : ~ In sep s -> split_on sep s = [s].
Proof.
  induction s; cbn; intros H; [reflexivity|].
  destruct (a =? sep) eqn:E; [apply N.eqb_eq in E; tauto|].
  rewrite IHs by tauto. reflexivity.
Qed.

Lemma split_on_app sep a b : ~ In sep a -> split_on sep (a ++ sep :: b) = a :: split_on sep b.
Proof.
  induction a; cbn; intros H.
  - rewrite N.eqb_refl. reflexivity.
  - destruct (a =? sep) eqn:E; [apply N.eqb_eq in E; tauto|].
    rewrite IHa by tauto. reflexivity.
Qed.

(** [join] is the inverse of [split_on]. *)
Fixpoint join (sep : N) (ls : list bytes) : bytes :=
  match ls with
  | [] => []
  | [x] => x
  | x :: t => x ++ sep :: join sep t
  end.
Lemma join_split sep s : join sep (split_on sep s) = s.
Proof.
  induction s; cbn; [reflexivity|].
  destruct (a =? sep) eqn:E.
  - apply N.eqb_eq in E. subst. destruct (split_on sep s) eqn:F.
    + exfalso. eapply split_on_nonnil; eauto.
    + cbn [join app]. rewrite <- IHs. reflexivity.
  - destruct (split_on sep s) eqn:F.
    + exfalso. eapply split_on_nonnil; eauto.
    + cbn [join] in *. destruct l0; cbn [app]; rewrite <- IHs; reflexivity.
Qed.
Lemma split_on_pieces sep s : Forall (fun l => ~ In sep l) (split_on sep s).
Proof.
  induction s; cbn; [repeat constructor; auto|].
  destruct (a =? sep) eqn:E; [constructor; auto|].
  apply N.eqb_neq in E.
  destruct (split_on sep s); inversion IHs; subst; repeat constructor; auto; cbn; intros [?|?]; tauto.
Qed.
Lemma split_join sep ls : ls <> [] -> Forall (fun l => ~ In sep l) ls -> split_on sep (join sep ls) = ls.
Proof.
  induction ls; intros H F; [congruence|]. inversion F; subst.
  destruct ls; cbn [join].
  - apply split_on_nosep; auto.
  - rewrite split_on_app by auto. f_equal. apply IHls; [congruence|auto].
Qed.

Lemma split_once_app sep a b : ~ In sep a -> split_once sep (a ++ sep :: b) = Some (a, b).
Proof.
  induction a; cbn; intros H.
  - rewrite N.eqb_refl. reflexivity.
  - destruct (a =? sep) eqn:E; [apply N.eqb_eq in E; tauto|].
    rewrite IHa by tauto. reflexivity.
Qed.
Lemma split_once_spec sep s a b : split_once sep s = Some (a, b) <-> s = a ++ sep :: b /\ ~ In sep a.
Proof.
  split.
  - revert a. induction s; cbn; intros x H; [discriminate|].
    destruct (a =? sep) eqn:E.
    + apply N.eqb_eq in E. injection H as <- <-. subst. auto.
    + destruct (split_once sep s) as [[u v]|]; [|discriminate]. injection H as <- <-.
      destruct (IHs u eq_refl) as [-> Hn]. split; [reflexivity|].
      cbn. intros [->|?]; [rewrite N.eqb_refl in E; discriminate | tauto].
  - intros [-> H]. apply split_once_app; auto.
Qed.
Lemma split_once_none sep s : split_once sep s = None <-> ~ In sep s.
Proof.
  induction s; cbn; [tauto|]. destruct (a =? sep) eqn:E.
  - apply N.eqb_eq in E. split; [discriminate|]. subst; tauto.
  - apply N.eqb_neq in E. destruct (split_once sep s) as [[u v]|]; split; intros H; try discriminate; auto.
    + exfalso. apply H. right. destruct IHs as [_ IH].
      destruct (in_dec N.eq_dec sep s); auto. discriminate IH; auto.
    + intros [->|Hs]; [congruence|]. apply IHs; auto.
Qed.

(** Suffixes. *)
Lemma ends_with_spec s suf : ends_with s suf = true <-> exists p, s = p ++ suf.
Proof.
  unfold ends_with. split.
  - intros H. apply andb_true_iff in H as [H1 H2]. apply bytes_eqb_eq in H2.
    exists (takeN (len s - len suf) s). rewrite <- H2 at 2. symmetry. apply takeN_dropN.
  - intros [p ->]. rewrite len_app. apply andb_true_iff. split; [apply N.leb_le; lia|].
    apply bytes_eqb_eq. apply dropN_app. lia.
Qed.
Lemma strip_suffix_spec s suf p : strip_suffix s suf = Some p <-> s = p ++ suf.
Proof.
  unfold strip_suffix. destruct (ends_with s suf) eqn:E.
  - apply ends_with_spec in E as [q ->]. rewrite len_app.
    rewrite takeN_app by lia. split; intros H.
    + injection H as ->. reflexivity.
    + apply app_inv_tail in H. subst. reflexivity.
  - split; [discriminate|]. intros ->. rewrite (proj2 (ends_with_spec _ _)) in E; [discriminate|eauto].
Qed.
Lemma starts_with_spec s p : starts_with s p = true <-> exists r, s = p ++ r.
Proof.
  unfold starts_with. split.
  - intros H. apply andb_true_iff in H as [H1 H2]. apply bytes_eqb_eq in H2.
    exists (dropN (len p) s). rewrite <- H2 at 1. symmetry. apply takeN_dropN.
  - intros [r ->]. rewrite len_app. apply andb_true_iff. split; [apply N.leb_le; lia|].
    apply bytes_eqb_eq. apply takeN_app. lia.
Qed.

(** Case folding. *)
Lemma ascii_lower_idem b : ascii_lower (ascii_lower b) = ascii_lower b.
Proof.
  unfold ascii_lower. destruct ((65 <=? b) && (b <=? 90)) eqn:E; [|rewrite E; reflexivity].
  apply andb_true_iff in E as [E1 E2]. apply N.leb_le in E1, E2.
  destruct (b + 32 <=? 90) eqn:F; [apply N.leb_le in F; lia|]. rewrite andb_false_r. reflexivity.
Qed.
Lemma lowercase_idem s : lowercase (lowercase s) = lowercase s.
Proof. unfold lowercase. rewrite map_map. apply map_ext. intros. apply ascii_lower_idem. Qed.
Lemma lowercase_app a b : lowercase (a ++ b) = lowercase a ++ lowercase b.
Proof. apply map_app. Qed.
Lemma len_lowercase s : len (lowercase s) = len s.
Proof. apply len_map. Qed.
Lemma ascii_lower_dot b : ascii_lower b = dot <-> b = dot.
Proof.
  unfold ascii_lower, dot. destruct ((65 <=? b) && (b <=? 90)) eqn:E; [|reflexivity].
  apply andb_true_iff in E as [E1 E2]. apply N.leb_le in E1, E2. lia.
Qed.
