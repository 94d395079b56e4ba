(** Proofs about [Name] (C01-C03) and the canonical name order (C17). *)
From Verif Require Import Base NameM NameSpec BaseP ValM.
From Coq Require Import Arith.
Local Open Scope N_scope.

Lemma to_lower_ascii c : to_lower c = ascii_lower c.
Proof. reflexivity. Qed.
Lemma lower_lowercase s : lower s = lowercase s.
Proof. reflexivity. Qed.

Definition nodot (l : bytes) : Prop := ~ In 46 l.

Lemma label_ok_nodot l : label_ok l -> nodot l.
Proof.
  intros [_ H] Hin. rewrite Forall_forall in H. specialize (H _ Hin). unfold label_char in H. lia.
Qed.
Lemma labels_ok_nodot ls : Forall label_ok ls -> Forall nodot ls.
Proof. apply Forall_impl. apply label_ok_nodot. Qed.

Lemma dots_cons l ls : dots (l :: ls) = l ++ 46 :: dots ls.
Proof. unfold dots. cbn. rewrite <- app_assoc. reflexivity. Qed.
Lemma dots_app a b : dots (a ++ b) = dots a ++ dots b.
Proof. unfold dots. rewrite map_app, concat_app. reflexivity. Qed.

Lemma split_dots ls : Forall nodot ls -> split_on 46 (dots ls) = ls ++ [[]].
Proof.
  induction 1; [reflexivity|]. rewrite dots_cons. rewrite split_on_app by auto. rewrite IHForall. reflexivity.
Qed.
Lemma dots_split s : dots (split_on 46 s) = s ++ [46].
Proof.
  induction s; [reflexivity|]. cbn [split_on]. destruct (a =? 46) eqn:E.
  - apply N.eqb_eq in E. subst. rewrite dots_cons. cbn. rewrite IHs. reflexivity.
  - destruct (split_on 46 s) eqn:F.
    + exfalso. eapply split_on_nonnil; eauto.
    + rewrite dots_cons in *. cbn. rewrite IHs. reflexivity.
Qed.
Lemma dots_inj a b : Forall nodot a -> Forall nodot b -> dots a = dots b -> a = b.
Proof.
  intros Ha Hb E. apply (f_equal (split_on 46)) in E. rewrite !split_dots in E by auto.
  apply app_inj_tail in E. tauto.
Qed.
Lemma dots_nonnil ls : ls <> [] -> exists s, dots ls = s ++ [46].
Proof.
  intros H. destruct (exists_last H) as (a & l & ->). rewrite dots_app. exists (dots a ++ l).
  unfold dots at 2. cbn. rewrite app_nil_r, app_assoc. reflexivity.
Qed.

Lemma label_chars_spec s :
  existsb (fun c => negb (is_graphic c) || (c =? dquote)) s = false <-> Forall (fun c => 33 <= c <= 126 /\ c <> 34) s.
Proof.
  rewrite existsb_false, Forall_forall. unfold is_graphic, dquote.
  split; intros H x Hx; specialize (H x Hx).
  - apply orb_false_iff in H as [H1 H2]. apply negb_false_iff, andb_true_iff in H1 as [H3 H4].
    apply N.leb_le in H3, H4. apply N.eqb_neq in H2. lia.
  - apply orb_false_iff. split; [apply negb_false_iff, andb_true_iff; split; apply N.leb_le; lia|].
    apply N.eqb_neq; lia.
Qed.

Lemma forall_dots (P : N -> Prop) ls : Forall P (dots ls) <-> (Forall (Forall P) ls /\ (ls <> [] -> P 46)).
Proof.
  induction ls.
  - cbn. split; intros; [split; auto; congruence | constructor].
  - rewrite dots_cons, Forall_app, Forall_cons_iff, IHls, Forall_cons_iff. split; intros H.
    + destruct H as (H1 & H2 & H3 & H4). repeat split; auto.
    + destruct H as ((H1 & H2) & H3). assert (P 46) by (apply H3; congruence). repeat split; auto.
Qed.

Lemma name_try_from_spec s n : name_try_from s = Some n <-> acceptable s /\ n = lower s.
Proof.
  unfold name_try_from. split.
  - intros H. destruct (is_nil s) eqn:E1; [discriminate|]. apply is_nil_false in E1.
    destruct (negb (last s 0 =? dot)) eqn:E2; [discriminate|].
    apply negb_false_iff, N.eqb_eq in E2.
    destruct (255 <? len s) eqn:E3; [discriminate|]. apply N.ltb_ge in E3.
    destruct (existsb (fun c => negb (is_graphic c) || (c =? dquote)) s) eqn:E4; [discriminate|].
    apply label_chars_spec in E4.
    destruct (existsb (fun l => 63 <? len l) (split_on dot s)) eqn:E5; [discriminate|].
    injection H as <-. split; [|reflexivity].
    destruct (exists_last E1) as (s' & c & ->). rewrite last_last in E2. subst c.
    exists (split_on 46 s'). repeat split.
    + apply split_on_nonnil.
    + symmetry. apply dots_split.
    + change [dot] with [46] in E4, E5. rewrite <- dots_split in E4, E5.
      unfold dot in E5. rewrite split_dots in E5 by apply split_on_pieces.
      apply forall_dots in E4 as [E4 _].
      pose proof (split_on_pieces 46 s') as P.
      rewrite Forall_forall in *. intros l Hl. split.
      * rewrite existsb_false in E5. specialize (E5 l). rewrite N.ltb_ge in E5.
        unfold len in E5. rewrite in_app_iff in E5. specialize (E5 (or_introl Hl)). lia.
      * rewrite Forall_forall. intros c Hc. specialize (E4 l Hl). rewrite Forall_forall in E4.
        specialize (E4 c Hc). specialize (P l Hl). unfold label_char. split; [lia|]. split; [lia|].
        intros ->. auto.
    + unfold len in E3. lia.
  - intros [(ls & H1 & -> & H2 & H3) ->].
    destruct (dots_nonnil ls H1) as (s' & E).
    replace (is_nil (dots ls)) with false by (rewrite E; destruct s'; reflexivity).
    replace (last (dots ls) 0) with dot by (rewrite E; symmetry; apply last_last).
    rewrite N.eqb_refl. cbn [negb].
    replace (255 <? len (dots ls)) with false by (symmetry; apply N.ltb_ge; unfold len; lia).
    rewrite (proj2 (label_chars_spec (dots ls))).
    2:{ apply forall_dots. split; [|lia]. eapply Forall_impl; [|exact H2]. intros l [_ F].
        eapply Forall_impl; [|exact F]. unfold label_char. intros; lia. }
    replace (existsb (fun l => 63 <? len l) (split_on dot (dots ls))) with false; [reflexivity|].
    symmetry. apply existsb_false. unfold dot. rewrite split_dots by (apply labels_ok_nodot; auto).
    intros l Hl. apply N.ltb_ge. apply in_app_iff in Hl as [Hl|[<-|[]]]; [|cbn; lia].
    rewrite Forall_forall in H2. destruct (H2 l Hl). unfold len. lia.
Qed.

(** Lower-casing keeps everything [acceptable] looks at. *)
Lemma lower_dots ls : lower (dots ls) = dots (map lower ls).
Proof.
  induction ls; [reflexivity|]. cbn [map]. rewrite !dots_cons. unfold lower in *. rewrite map_app. cbn [map].
  rewrite IHls. reflexivity.
Qed.
Lemma label_char_lower c : label_char (to_lower c) <-> label_char c.
Proof.
  unfold label_char, to_lower. destruct ((65 <=? c) && (c <=? 90)) eqn:E; [|reflexivity].
  apply andb_true_iff in E as [E1 E2]. apply N.leb_le in E1, E2. lia.
Qed.
Lemma label_ok_lower l : label_ok (lower l) <-> label_ok l.
Proof.
  unfold label_ok, lower. rewrite map_length. rewrite Forall_map.
  split; intros [H1 H2]; split; auto; (eapply Forall_impl; [|exact H2]); intros; apply label_char_lower; auto.
Qed.
Lemma labels_ok_lower ls : Forall label_ok (map lower ls) <-> Forall label_ok ls.
Proof.
  rewrite Forall_map. split; intros H; (eapply Forall_impl; [|exact H]); intros; apply label_ok_lower; auto.
Qed.
Lemma lower_length s : length (lower s) = length s.
Proof. apply map_length. Qed.
Lemma lower_idem s : lower (lower s) = lower s.
Proof. rewrite !lower_lowercase. apply lowercase_idem. Qed.
Lemma in_lower_46 l : In 46 (lower l) <-> In 46 l.
Proof.
  unfold lower. rewrite in_map_iff. split.
  - intros (x & E & H). apply (proj1 (ascii_lower_dot x)) in E. subst. exact H.
  - intros H. exists 46. auto.
Qed.
Lemma nodot_lower l : nodot (lower l) <-> nodot l.
Proof. unfold nodot. rewrite in_lower_46. reflexivity. Qed.
Lemma nodots_lower ls : Forall nodot (map lower ls) <-> Forall nodot ls.
Proof.
  rewrite Forall_map. split; intros H; (eapply Forall_impl; [|exact H]); intros; apply nodot_lower; auto.
Qed.

Lemma acceptable_lower s : acceptable (lower s) <-> acceptable s.
Proof.
  split.
  - intros (ls & H1 & H2 & H3 & H4). rewrite lower_length in H4.
    destruct (dots_nonnil ls H1) as (t & E). rewrite E in H2.
    assert (exists s', s = s' ++ [46]) as [s' ->].
    { destruct (exists_last (l := s)) as (s' & c & ->).
      - intros ->. cbn in H2. destruct t; discriminate.
      - unfold lower in H2. rewrite map_app in H2. apply app_inj_tail in H2 as [_ H2].
        apply (proj1 (ascii_lower_dot c)) in H2. subst. eauto. }
    exists (split_on 46 s'). repeat split; auto.
    + apply split_on_nonnil.
    + symmetry. apply dots_split.
    + rewrite <- E in H2. rewrite <- dots_split in H2. rewrite lower_dots in H2.
      apply dots_inj in H2; [|apply nodots_lower, split_on_pieces | apply labels_ok_nodot; auto].
      rewrite <- H2 in H3. apply labels_ok_lower. exact H3.
  - intros (ls & H1 & -> & H3 & H4). exists (map lower ls). repeat split.
    + destruct ls; cbn; congruence.
    + apply lower_dots.
    + apply labels_ok_lower; auto.
    + rewrite lower_length. auto.
Qed.

Lemma name_try_from_case a b : lower a = lower b -> name_try_from a = name_try_from b.
Proof.
  assert (W : forall a b n, lower a = lower b -> name_try_from a = Some n -> name_try_from b = Some n).
  { intros x y n E H. apply name_try_from_spec in H as [H ->]. apply name_try_from_spec.
    split; [|congruence]. apply acceptable_lower. rewrite <- E. apply acceptable_lower. auto. }
  intros E. destruct (name_try_from a) eqn:Ea.
  - symmetry. eapply W; eauto.
  - destruct (name_try_from b) eqn:Eb; [|reflexivity].
    eapply W in Eb; [|symmetry; exact E]. congruence.
Qed.
Lemma name_reparse s n : name_try_from s = Some n -> name_try_from n = Some n.
Proof.
  intros H. pose proof H as H0. apply name_try_from_spec in H as [H ->].
  apply name_try_from_spec. rewrite acceptable_lower, lower_idem. auto.
Qed.

(** The values the API can hold. *)
Definition valid_name (n : name) : Prop := name_try_from n = Some n.
Lemma valid_name_spec n : valid_name n <-> acceptable n /\ lower n = n.
Proof.
  unfold valid_name. rewrite name_try_from_spec. split; intros [? ?]; split; auto.
Qed.

(** ** Labels *)
Lemma count_dots ls : Forall nodot ls -> filter (fun c => c =? 46) (dots ls) = repeat 46 (length ls).
Proof.
  induction 1; [reflexivity|]. rewrite dots_cons, filter_app. cbn [filter].
  rewrite N.eqb_refl, IHForall.
  replace (filter (fun c => c =? 46) x) with (@nil N).
  - reflexivity.
  - clear - H. induction x; [reflexivity|]. cbn. destruct (a =? 46) eqn:E.
    + apply N.eqb_eq in E. subst. exfalso. apply H. left. reflexivity.
    + apply IHx. intros ?. apply H. right. auto.
Qed.

Lemma dots_length ls : (length ls <= length (dots ls))%nat.
Proof.
  induction ls; [cbn; lia|]. rewrite dots_cons, app_length. cbn [length]. lia.
Qed.

Lemma dots_root ls : Forall nodot ls -> dots ls = [46] -> ls = [[]].
Proof.
  intros H E. apply (dots_inj ls [[]]); auto. repeat constructor. intros [].
Qed.

Lemma splitn_dots k ls : Forall nodot ls -> (k < length ls)%nat ->
  last_opt (splitn_on 46 (S k) (dots ls)) = Some (dots (skipn k ls)).
Proof.
  revert ls. induction k; intros ls H L.
  - reflexivity.
  - destruct ls as [|l ls]; [cbn in L; lia|]. inversion H; subst.
    rewrite dots_cons. cbn [splitn_on]. rewrite split_once_app by auto. cbn [skipn].
    specialize (IHk ls H3). cbn [length] in L. rewrite <- IHk by lia.
    destruct k.
    + reflexivity.
    + cbn [splitn_on]. destruct ls as [|l' ls]; [cbn in L; lia|]. inversion H3; subst.
      rewrite dots_cons. rewrite split_once_app by auto.
      destruct (splitn_on 46 (S k) (dots ls)) eqn:E; cbn [last_opt]; [|reflexivity].
      destruct k; cbn in E; try discriminate. destruct (split_once 46 (dots ls)) as [[? ?]|]; discriminate.
Qed.

Lemma labels_dots ls : Forall nodot ls -> ls <> [] -> ls <> [[]] -> (length ls <= 255)%nat ->
  labels (dots ls) = N.of_nat (length ls).
Proof.
  intros H H0 H1 H2. unfold labels. destruct (bytes_eqb (dots ls) root_name) eqn:E.
  - apply bytes_eqb_eq in E. apply dots_root in E; auto. contradiction.
  - unfold dot. rewrite count_dots by auto. rewrite len_repeat. apply as_u8_small. lia.
Qed.

Lemma trailing_dots ls n : Forall nodot ls -> ls <> [] -> ls <> [[]] -> (length ls <= 255)%nat ->
  trailing_n_labels (dots ls) n =
    if N.of_nat (length ls) <? n then None
    else if n =? 0 then Some [46]
    else Some (dots (skipn (length ls - N.to_nat n) ls)).
Proof.
  intros H H0 H1 H2. unfold trailing_n_labels. rewrite labels_dots by auto.
  destruct (N.of_nat (length ls) <? n) eqn:E; [reflexivity|]. apply N.ltb_ge in E.
  destruct (n =? N.of_nat (length ls)) eqn:E1.
  - apply N.eqb_eq in E1. subst n. destruct ls; [congruence|]. cbn [length] in *.
    replace (N.of_nat (S (length ls)) =? 0) with false by (symmetry; apply N.eqb_neq; lia).
    rewrite Nat2N.id, Nat.sub_diag. reflexivity.
  - apply N.eqb_neq in E1. destruct (n =? 0) eqn:E2; [reflexivity|]. apply N.eqb_neq in E2.
    replace (N.to_nat (N.of_nat (length ls) - n + 1)) with (S (length ls - N.to_nat n)) by lia.
    apply splitn_dots; auto. lia.
Qed.

Lemma acceptable_skipn k ls : Forall label_ok ls -> (length (dots ls) <= 255)%nat -> (k < length ls)%nat ->
  acceptable (dots (skipn k ls)).
Proof.
  intros H H0 H1. exists (skipn k ls). repeat split.
  - intros E. apply (f_equal (@length _)) in E. rewrite skipn_length in E. cbn in E. lia.
  - rewrite <- (firstn_skipn k ls) in H. apply Forall_app in H. tauto.
  - rewrite <- (firstn_skipn k ls), dots_app, app_length in H0. lia.
Qed.

Lemma valid_root : valid_name [46].
Proof. reflexivity. Qed.

Lemma trailing_valid nm n s : valid_name nm -> trailing_n_labels nm n = Some s ->
  valid_name s /\ exists p, nm = p ++ s.
Proof.
  intros Hv H. pose proof Hv as Hv0. apply valid_name_spec in Hv as [(ls & H1 & -> & H3 & H4) HL].
  destruct (list_eq_dec (list_eq_dec N.eq_dec) ls [[]]) as [->|Hr].
  - unfold trailing_n_labels in H. change (labels (dots [[]])) with 0 in H. destruct n; cbn in H; [|discriminate].
    injection H as <-. split; [exact Hv0|]. exists []. reflexivity.
  - assert (Hn : Forall nodot ls) by (apply labels_ok_nodot; auto).
    assert (Hl : (length ls <= 255)%nat) by (pose proof (dots_length ls); lia).
    rewrite trailing_dots in H by auto.
    destruct (N.of_nat (length ls) <? n) eqn:E; [discriminate|]. apply N.ltb_ge in E.
    destruct (n =? 0) eqn:E2.
    + injection H as <-. split; [apply valid_root|]. destruct (dots_nonnil ls H1) as (p & ->). eauto.
    + apply N.eqb_neq in E2. injection H as <-.
      assert (P : dots ls = dots (firstn (length ls - N.to_nat n) ls) ++ dots (skipn (length ls - N.to_nat n) ls)).
      { rewrite <- dots_app, firstn_skipn. reflexivity. }
      split; [|eauto]. apply valid_name_spec. split; [apply acceptable_skipn; auto; destruct ls; cbn [length] in *; [congruence|lia]|].
      rewrite P in HL. unfold lower in HL at 1. rewrite map_app in HL. apply app_inv_len in HL as [_ HL].
      * exact HL.
      * apply len_map.
Qed.

Lemma labels_and_suffixes ls : valid_name (dots ls) -> Forall label_ok ls -> ls <> [] -> ls <> [[]] ->
  labels (dots ls) = N.of_nat (length ls) /\
  (forall n, N.of_nat (length ls) < n -> trailing_n_labels (dots ls) n = None) /\
  trailing_n_labels (dots ls) 0 = Some [46] /\
  (forall pre suf, ls = pre ++ suf -> suf <> [] ->
     trailing_n_labels (dots ls) (N.of_nat (length suf)) = Some (dots suf)).
Proof.
  intros Hv H H0 H1. assert (Hn := labels_ok_nodot _ H).
  assert (Hl : (length ls <= 255)%nat).
  { apply valid_name_spec in Hv as [(ls' & _ & E & _ & L) _]. pose proof (dots_length ls). lia. }
  split; [apply labels_dots; auto|]. repeat split.
  - intros n L. rewrite trailing_dots by auto. apply N.ltb_lt in L. rewrite L. reflexivity.
  - rewrite trailing_dots by auto. replace (N.of_nat (length ls) <? 0) with false by (symmetry; apply N.ltb_ge; lia).
    reflexivity.
  - intros pre suf E Hs. rewrite trailing_dots by auto.
    assert (length ls = length pre + length suf)%nat by (rewrite E; apply app_length).
    replace (N.of_nat (length ls) <? N.of_nat (length suf)) with false by (symmetry; apply N.ltb_ge; lia).
    destruct suf; [congruence|]. 
    replace (N.of_nat (length (l :: suf)) =? 0) with false by (symmetry; apply N.eqb_neq; cbn [length]; lia).
    rewrite Nat2N.id. replace (length ls - length (l :: suf))%nat with (length pre) by lia.
    rewrite E. rewrite skipn_app, skipn_all, Nat.sub_diag. reflexivity.
Qed.
Lemma root_labels : labels [46] = 0 /\ trailing_n_labels [46] 0 = Some [46] /\
  (forall n, 0 < n -> trailing_n_labels [46] n = None).
Proof.
  split; [reflexivity|]. split; [reflexivity|]. intros n H. unfold trailing_n_labels.
  change (labels [46]) with 0. apply N.ltb_lt in H. rewrite H. reflexivity.
Qed.
