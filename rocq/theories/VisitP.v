(** The number of zones visited by [verify_rr_stream] (C55): at most two to the number of delegations. *)
From Coq Require Import Permutation Lia PeanoNat.
From Verif Require Import Base BaseP NameSpec NameM NameP WireM RRM SerM RecSpec RecP RecP2 ValM ValSpec HeldP ValP ValP2 ValP3 ValP4.
Local Open Scope N_scope.

Fixpoint sum (f : list N -> nat) (l : list (list N)) : nat := match l with [] => O | x :: l => (f x + sum f l)%nat end.
Lemma sum_app f a b : sum f (a ++ b) = (sum f a + sum f b)%nat.
Proof. induction a; cbn; lia. Qed.
Lemma sum_perm f a b : Permutation a b -> sum f a = sum f b.
Proof. induction 1; cbn in *; lia. Qed.
Lemma sum_incl f a : NoDup a -> forall b, incl a b -> (sum f a <= sum f b)%nat.
Proof.
  induction 1 as [| x a NI ND IH]; intros b I; [cbn; lia |]. destruct (in_split x b (I x (or_introl eq_refl))) as (b1 & b2 & ->).
  assert (J : incl a (b1 ++ b2)). { intros y Y. assert (K := I y (or_intror Y)). apply in_app_or in K. apply in_or_app. destruct K as [K | [K | K]]; auto. subst. contradiction. }
  specialize (IH _ J). rewrite sum_app in *. cbn [sum]. lia.
Qed.
Lemma sum_le f g l : (forall x, In x l -> (f x <= g x)%nat) -> (sum f l <= sum g l)%nat.
Proof.
  induction l as [| x l IH]; intros H; [cbn; lia |]. cbn. pose proof (H x (or_introl eq_refl)). assert (sum f l <= sum g l)%nat by (apply IH; intros; apply H; right; assumption).
  lia.
Qed.

(** [n] is strictly below [z]. *)
Definition under (z n : list N) : bool := ends_with n z && (len z <? len n).
Definition below (l : list (list N)) (z : list N) : list (list N) := filter (under z) l.

Lemma under_spec z n : under z n = true <-> (exists p, n = p ++ z) /\ (length z < length n)%nat.
Proof. unfold under. rewrite andb_true_iff, ends_with_spec, N.ltb_lt. unfold len. split; intros [A B]; split; auto; lia. Qed.
Lemma under_trans a b c : under a b = true -> under b c = true -> under a c = true.
Proof. rewrite !under_spec. intros [(p & ->) L] [(q & ->) M]. split; [exists (q ++ p); apply app_assoc | lia]. Qed.

Lemma shortest (l : list (list N)) : l <> [] -> exists m, In m l /\ forall x, In x l -> (length m <= length x)%nat.
Proof.
  induction l as [| a l IH]; intros H; [congruence |]. destruct l as [| b l].
  - exists a. split; [left; reflexivity |]. intros x [<- | []]. lia.
  - destruct (IH ltac:(discriminate)) as (m & I & M). destruct (Nat.le_gt_cases (length a) (length m)).
    + exists a. split; [left; reflexivity |]. intros x [<- | X]; [lia |]. specialize (M x X). lia.
    + exists m. split; [right; exact I |]. intros x [<- | X]; [lia | auto].
Qed.
Lemma filter_length_le {A} (f : A -> bool) l : (length (filter f l) <= length l)%nat.
Proof. induction l; cbn; [lia |]. destruct (f a); cbn; lia. Qed.

Lemma filter_len_perm {A} (f : A -> bool) a b : Permutation a b -> length (filter f a) = length (filter f b).
Proof. induction 1; cbn; repeat match goal with |- context [f ?x] => destruct (f x) end; cbn; congruence. Qed.

Lemma sum_weights n : forall l, length l = n -> (sum (fun b => 2 ^ length (below l b)) l < 2 ^ n)%nat.
Proof.
  induction n as [| n IH]; intros l L.
  - destruct l; [cbn; lia | discriminate].
  - destruct (shortest l ltac:(intros ->; discriminate)) as (m & I & M). destruct (in_split m l I) as (l1 & l2 & ->).
    assert (PM : Permutation (l1 ++ m :: l2) (m :: l1 ++ l2)) by (symmetry; apply Permutation_middle).
    rewrite (sum_perm _ _ _ PM). cbn [sum].
    set (l' := l1 ++ l2) in *. assert (LL : length l' = n). { unfold l'. rewrite app_length in *. cbn in L. lia. }
    assert (E : forall b, In b (m :: l') -> length (below (l1 ++ m :: l2) b) = length (below l' b)).
    { intros b Hb. unfold below. rewrite (filter_len_perm _ _ _ PM). cbn [filter]. destruct (under b m) eqn:U; [| reflexivity].
      apply under_spec in U as [_ U]. assert (J : In b (l1 ++ m :: l2)) by (eapply Permutation_in; [symmetry; exact PM | exact Hb]). specialize (M b J). lia. }
    specialize (IH l' LL). assert (S1 : (sum (fun b => 2 ^ length (below (l1 ++ m :: l2) b)) l' <= sum (fun b => 2 ^ length (below l' b)) l')%nat).
    { apply sum_le. intros b Hb. rewrite E by (right; exact Hb). lia. }
    assert (S2 : (2 ^ length (below (l1 ++ m :: l2) m) <= 2 ^ n)%nat).
    { apply Nat.pow_le_mono_r; [lia |]. rewrite E by (left; reflexivity). rewrite <- LL. apply filter_length_le. }
    cbn [Nat.pow]. lia.
Qed.

Lemma below_weights l z : (sum (fun b => 2 ^ length (below l b)) (below l z) < 2 ^ length (below l z))%nat.
Proof.
  eapply Nat.le_lt_trans; [| apply (sum_weights _ (below l z) eq_refl)]. apply sum_le. intros b Hb. apply Nat.pow_le_mono_r; [lia |].
  unfold below in *. apply filter_In in Hb as [_ Hb]. assert (E : filter (under b) l = filter (under b) (filter (under z) l)); [| rewrite <- E; reflexivity].
  clear - Hb. induction l as [| x l IH]; [reflexivity |]. cbn [filter]. destruct (under b x) eqn:U.
  - rewrite (under_trans _ _ _ Hb U). cbn [filter]. rewrite U. congruence.
  - destruct (under z x); [cbn [filter]; rewrite U |]; exact IH.
Qed.

Section Visits.
  Variables (e : env) (dbg : bool) (inp : list RR) (zones : list (list N)).
  Hypothesis Hself : forall s, ds_sig inp s -> rs_name s <> rs_key_name s.
  Hypothesis Hzones : forall s, ds_sig inp s -> In (rs_name s) zones.

  Definition load (z : list N) : nat := (2 ^ length (below zones z))%nat.
  Definition loads (st : vstate) : nat := sum load (map fst (v_pending st)).

  Lemma load_pos z : (1 <= load z)%nat.
  Proof. unfold load. pose proof (Nat.pow_nonzero 2 (length (below zones z))). lia. Qed.
  Lemma loads_rest z : (sum load (below zones z) < load z)%nat.
  Proof. apply below_weights. Qed.

  Lemma step_new z s st st' : sig_step e dbg inp z s st = Ok st' -> In s (zone_rrsigs inp z) ->
    v_zone st' = v_zone st /\ (v_pending st' = v_pending st \/
    exists d, v_pending st' = (rs_name s, d) :: v_pending st /\ In (rs_name s) (below zones z) /\ ~ In (rs_name s) (map fst (v_pending st))).
  Proof.
    intros H I. apply in_zone_rrsigs in I as (S1 & S2 & S3). pose proof (step_pending _ _ _ _ _ _ _ H) as [Z [P | (D & E & d & P)]]; [auto |].
    split; [exact Z |]. right. exists d. split; [exact P |]. split.
    - unfold below. apply filter_In. split; [apply Hzones; split; assumption |]. apply under_spec. split; [apply ends_with_spec, E |].
      apply (child_longer inp Hself z s (conj S1 D) S2 E).
    - intros C. revert H. unfold sig_step. rewrite E. cbn [negb]. destruct (verify_rrsig e dbg s (zone_dnskeys inp z) (covered inp s)) as [[] | [] | |]; try discriminate.
      + cbv zeta. rewrite D. change ((43 =? T_RRSIG) || (43 =? T_DNSKEY)) with false. change (43 =? T_DS) with true. cbn iota. intros H.
        assert (X : forall a b : vstate, @Ok verr vstate a = Ok b -> b = a) by (intros; congruence). apply X in H. unfold push_ds in H. cbn [note_sig v_pending] in H.
        replace (existsb (fun p => bytes_eqb (fst p) (rs_name s)) (v_pending st)) with true in H.
        * subst st'. cbn [note_sig v_pending] in P. apply (f_equal (@length _)) in P. cbn in P. lia.
        * symmetry. apply existsb_exists. apply in_map_iff in C as (p & C1 & C2). exists p. split; [exact C2 |]. rewrite C1. apply bytes_eqb_refl.
      + intros H. assert (st' = st) by congruence. subst. apply (f_equal (@length _)) in P. cbn in P. lia.
  Qed.

  Lemma sigs_new z sigs : (forall s, In s sigs -> In s (zone_rrsigs inp z)) -> forall st st', sigs_loop e dbg inp z sigs st = Ok st' ->
    v_zone st' = v_zone st /\ exists new, v_pending st' = new ++ v_pending st /\ NoDup (map fst new) /\ incl (map fst new) (below zones z) /\
      (forall n, In n (map fst new) -> ~ In n (map fst (v_pending st))).
  Proof.
    induction sigs as [| s sigs IH]; intros Hin st st' H; cbn [sigs_loop] in H.
    - assert (st' = st) by congruence. subst. split; [reflexivity |]. exists []. repeat split; auto; [constructor | intros x []].
    - apply obind_ok in H as (st1 & H1 & H2). apply IH in H2 as (Z & new & P & ND & IN & FR); [| intros x Hx; apply Hin; right; exact Hx].
      apply step_new in H1 as (Z1 & [P1 | (d & P1 & B & F)]); [| | apply Hin; left; reflexivity].
      + split; [congruence |]. exists new. rewrite <- P1. auto.
      + split; [congruence |]. exists (new ++ [(rs_name s, d)]). rewrite P, P1, <- app_assoc. split; [reflexivity |]. rewrite map_app. cbn [map fst]. split; [| split].
        * assert (NI : ~ In (rs_name s) (map fst new)). { intros C. apply (FR _ C). rewrite P1. left. reflexivity. }
          apply (Permutation_NoDup (l := rs_name s :: map fst new)); [apply Permutation_cons_append |]. constructor; assumption.
        * intros x Hx. apply in_app_or in Hx as [Hx | [<- | []]]; auto.
        * intros n Hn. apply in_app_or in Hn as [Hn | [<- | []]]; [| exact F]. intros C. apply (FR n Hn). rewrite P1. right. exact C.
  Qed.

  Lemma zone_step_loads st st' : zone_step e dbg inp st = Ok st' -> v_pending st <> [] ->
    v_zone st' = v_zone (fst (pop_zone st)) /\ (loads st' < loads st)%nat /\
    (forall p, In p (v_pending st') -> In p (v_pending st) \/ (length (v_zone st') < length (fst p))%nat).
  Proof.
    intros H Hp. unfold zone_step in H. destruct (v_pending st) as [| [z d] rest] eqn:E; [congruence |]. unfold pop_zone in *. rewrite E in *. cbn [fst v_zone] in *.
    destruct (if bytes_eqb z root_name then Some root_hints else Some d) as [dss |]; [| discriminate]. apply obind_ok in H as (s & _ & H).
    apply sigs_new in H as (Z & new & P & ND & IN & _); [| auto]. cbn [note_sig v_zone v_pending] in *. split; [exact Z |]. split.
    - unfold loads. rewrite P, E, map_app, sum_app. cbn [map fst sum].
      pose proof (sum_incl load _ ND _ IN). pose proof (loads_rest z). lia.
    - intros p Hi. rewrite P in Hi. apply in_app_or in Hi as [Hi | Hi]; [| left; right; exact Hi]. right. rewrite Z.
      assert (J := IN _ (in_map fst _ _ Hi)). apply filter_In in J as [_ J]. apply under_spec in J. apply J.
  Qed.

  Lemma zone_loop_loads n : forall st, (loads st <= n)%nat -> v_zone st <> [46] \/ v_pending st <> [] ->
    (forall p, In p (v_pending st) -> (2 <= length (fst p))%nat) -> zone_loop e dbg inp n st <> Loop.
  Proof.
    induction n as [| n IH]; intros st Ht HZ HP; cbn [zone_loop]; destruct (bytes_eqb (v_zone st) root_name || negb (is_nil (v_pending st))) eqn:E; try discriminate.
    all: assert (NP : v_pending st <> []) by
      (destruct HZ as [HZ | HZ]; [| exact HZ]; apply orb_true_iff in E as [E | E];
        [apply bytes_eqb_eq in E; contradiction | destruct (v_pending st); [discriminate E | discriminate]]).
    - exfalso. unfold loads in Ht. destruct (v_pending st) as [| [z d] rest]; [congruence |]. cbn [map fst sum] in Ht. pose proof (load_pos z). lia.
    - rewrite obind_loop. intros [H | (st' & H1 & H2)]; [eapply zone_step_no_loop; eauto |].
      apply zone_step_loads in H1 as (Z & T & P); auto. revert H2.
      assert (ZL : (2 <= length (v_zone st'))%nat).
      { rewrite Z. unfold pop_zone. destruct (v_pending st) as [| [z d] rest] eqn:Ez; [congruence |]. cbn [fst v_zone]. apply (HP (z, d)). left. reflexivity. }
      apply IH.
      + lia.
      + left. intros G. rewrite G in ZL. cbn in ZL. lia.
      + intros p Hp. apply P in Hp as [Hp | Hp]; [auto | lia].
  Qed.

  Lemma visits_bound s0 n : ds_sig inp s0 -> rs_key_name s0 = [46] -> supported_alg (rs_alg s0) -> (2 ^ length zones <= n)%nat ->
    verify_rr_stream e dbg n inp <> Loop.
  Proof.
    intros [Hin Hd] Hk Ha Hn. assert (POS : (1 <= 2 ^ length zones)%nat) by (pose proof (Nat.pow_nonzero 2 (length zones)); lia).
    destruct n as [| n]; [lia |]. unfold verify_rr_stream. rewrite obind_loop. intros [H | (? & _ & H)]; [| eapply finish_no_loop; eauto].
    revert H. cbn [zone_loop]. change (bytes_eqb (v_zone vinit) root_name) with true. cbn [orb]. rewrite obind_loop.
    intros [H | (st1 & E & H)]; [eapply zone_step_no_loop; eauto |]. revert H.
    unfold zone_step in E. cbn [pop_zone vinit v_pending v_zone] in E. change (bytes_eqb root_name root_name) with true in E. cbv iota in E.
    apply obind_ok in E as (k & _ & E).
    assert (NE : v_pending st1 <> []).
    { eapply (sigs_pushes e dbg inp [46] _ s0); [| exact Hd | exact Ha | exact E]. apply in_zone_rrsigs. split; [exact Hin |]. split; [exact Hk |]. rewrite Hd. discriminate. }
    apply sigs_new in E as (Z & new & P & ND & IN & _); [| auto]. cbn [note_sig vinit v_pending] in P. rewrite app_nil_r in P. apply zone_loop_loads; [| auto |].
    - unfold loads. rewrite P. pose proof (sum_incl load _ ND _ IN). pose proof (loads_rest root_name).
      assert (load root_name <= 2 ^ length zones)%nat by (apply Nat.pow_le_mono_r; [lia | apply filter_length_le]). lia.
    - intros p Hp. rewrite P in Hp. assert (J := IN _ (in_map fst _ _ Hp)). apply filter_In in J as [_ J]. apply under_spec in J as [_ J].
      change (length root_name) with 1%nat in J. lia.
  Qed.
End Visits.
