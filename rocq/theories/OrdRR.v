(** The order of records ([rr_cmp]) is total, its [Eq] is equality; sorting with it does not depend on
    the order of the input; comparison with the RFC 4034 6.3 order of RDATA. *)
From Verif Require Import Base BaseP NameM WireM RRM NameSpec NameP OrdP RecSpec RecP RecP2.
From Coq Require Import Permutation Sorted Arith.
Local Open Scope N_scope.

(** Lexicographic comparison of lists of byte strings. *)
Fixpoint lcmp (a b : list (list N)) : comparison :=
  match a, b with
  | [], [] => Eq
  | [], _ :: _ => Lt
  | _ :: _, [] => Gt
  | x :: a', y :: b' => then_cmp (bytes_cmp x y) (lcmp a' b')
  end.
Lemma lcmp_eq a b : lcmp a b = Eq <-> a = b.
Proof.
  revert b. induction a as [|x a IH]; intros [|y b]; cbn; try (split; congruence).
  pose proof (bytes_cmp_eq x y) as E. destruct (bytes_cmp x y) eqn:C; cbn [then_cmp].
  - rewrite IH. split; [intros ->; f_equal; apply E; auto|congruence].
  - split; [discriminate|]. intros H. inversion H; subst. rewrite bytes_cmp_refl in C. discriminate.
  - split; [discriminate|]. intros H. inversion H; subst. rewrite bytes_cmp_refl in C. discriminate.
Qed.
Lemma lcmp_antisym a b : lcmp b a = CompOpp (lcmp a b).
Proof.
  revert b. induction a as [|x a IH]; intros [|y b]; cbn; auto.
  rewrite bytes_cmp_antisym. destruct (bytes_cmp x y); cbn; auto.
Qed.
Lemma lcmp_trans a b c : lcmp a b = Lt -> lcmp b c = Lt -> lcmp a c = Lt.
Proof.
  revert b c. induction a as [|x a IH]; intros [|y b] [|z c]; cbn; try congruence.
  destruct (bytes_cmp x y) eqn:C1; cbn [then_cmp]; try discriminate;
    destruct (bytes_cmp y z) eqn:C2; cbn [then_cmp]; try discriminate.
  - apply bytes_cmp_eq in C1, C2. subst. rewrite bytes_cmp_refl. cbn. apply IH.
  - apply bytes_cmp_eq in C1. subst. rewrite C2. auto.
  - apply bytes_cmp_eq in C2. subst. rewrite C1. auto.
  - rewrite (bytes_cmp_lt_trans x y z); auto.
Qed.

(** TXT data as length-prefixed pieces; the last piece is short, possibly empty. *)
Fixpoint pieces (fuel : nat) (d : list N) : list (list N) :=
  match fuel with
  | O => []
  | S f => if len d <? 255 then [len d :: d] else (255 :: takeN 255 d) :: pieces f (dropN 255 d)
  end.
Definition txt_pieces (d : list N) : list (list N) := pieces (N.to_nat (len d / 255 + 1)) d.

Lemma slice_step a s t k : slice (dropN k a) s t = slice a (k + s) (k + t).
Proof.
  unfold slice, takeN, dropN. rewrite skipn_firstn_comm, skipn_firstn_comm, skipn_skipn'.
  replace (N.to_nat (k + s)) with (N.to_nat k + N.to_nat s)%nat by lia.
  f_equal. lia.
Qed.

Lemma div_step n : 255 <= n -> n / 255 = (n - 255) / 255 + 1.
Proof. intros H. replace n with (n - 255 + 1 * 255) at 1 by lia. rewrite N.div_add by discriminate. reflexivity. Qed.

(** Shifting the loop by one chunk. *)
Lemma txt_loop_shift idxs a b : 255 <= len a -> 255 <= len b -> Forall (fun i => (1 <= i)%nat) idxs ->
  txt_cmp_loop (map S idxs) a b = txt_cmp_loop idxs (dropN 255 a) (dropN 255 b).
Proof.
  intros Ha Hb Hi. induction Hi as [|i idxs Hi _ IH]; [reflexivity|].
  cbn [map txt_cmp_loop]. cbv zeta. rewrite IH. rewrite !slice_step, !len_dropN.
  replace (255 + (N.of_nat i - 1) * 255) with ((N.of_nat (S i) - 1) * 255) by lia.
  replace (255 + N.min (N.of_nat i * 255) (len a - 255)) with (N.min (N.of_nat (S i) * 255) (len a)) by lia.
  replace (255 + N.min (N.of_nat i * 255) (len b - 255)) with (N.min (N.of_nat (S i) * 255) (len b)) by lia.
  assert (E : (N.min (N.of_nat i * 255) (len a - 255) ?= N.min (N.of_nat i * 255) (len b - 255))
            = (N.min (N.of_nat (S i) * 255) (len a) ?= N.min (N.of_nat (S i) * 255) (len b))).
  { set (p := N.min (N.of_nat i * 255) (len a - 255)). set (q := N.min (N.of_nat i * 255) (len b - 255)).
    replace (N.min (N.of_nat (S i) * 255) (len a)) with (p + 255) by (subst p; lia).
    replace (N.min (N.of_nat (S i) * 255) (len b)) with (q + 255) by (subst q; lia).
    destruct (N.compare_spec p q) as [->|H|H]; symmetry; [apply N.compare_refl| |].
    - apply N.compare_lt_iff. lia.
    - apply N.compare_gt_iff. lia. }
  rewrite E. reflexivity.
Qed.

Lemma txt_cmp_pieces n : forall a b, (List.length a <= n)%nat -> txt_data_cmp a b = lcmp (txt_pieces a) (txt_pieces b).
Proof.
  induction n as [n IH] using lt_wf_ind. intros a b Hn.
  unfold txt_data_cmp, txt_pieces.
  replace (N.to_nat (len a / 255 + 1)) with (S (N.to_nat (len a / 255))) by lia.
  replace (N.to_nat (len b / 255 + 1)) with (S (N.to_nat (len b / 255))) by lia.
  cbn [seq txt_cmp_loop pieces]. cbv zeta. change ((N.of_nat 1 - 1) * 255) with 0. change (N.of_nat 1 * 255) with 255.
  assert (S0 : forall l k, slice l 0 k = takeN k l) by (intros; unfold slice; apply dropN_0).
  rewrite !S0.
  destruct (len a <? 255) eqn:Ea; [apply N.ltb_lt in Ea|apply N.ltb_ge in Ea];
    (destruct (len b <? 255) eqn:Eb; [apply N.ltb_lt in Eb|apply N.ltb_ge in Eb]).
  - rewrite (N.min_r _ (len a)), (N.min_r _ (len b)) by lia. rewrite (takeN_all _ a), (takeN_all _ b) by lia.
    rewrite N.div_small by lia. cbn [N.to_nat seq txt_cmp_loop lcmp bytes_cmp].
    destruct (len a ?= len b); cbn [then_cmp]; auto. destruct (bytes_cmp a b); reflexivity.
  - rewrite (N.min_r _ (len a)), (N.min_l _ (len b)) by lia.
    assert (E : (len a ?= 255) = Lt) by (apply N.compare_lt_iff; lia).
    rewrite E. cbn [lcmp bytes_cmp then_cmp]. rewrite E. reflexivity.
  - rewrite (N.min_l _ (len a)), (N.min_r _ (len b)) by lia.
    assert (E : (255 ?= len b) = Gt) by (apply N.compare_gt_iff; lia).
    rewrite E. cbn [lcmp bytes_cmp then_cmp]. rewrite E. reflexivity.
  - rewrite (N.min_l _ (len a)), (N.min_l _ (len b)) by lia. rewrite N.compare_refl.
    cbn [lcmp bytes_cmp then_cmp]. rewrite N.compare_refl. cbn [then_cmp].
    assert (E : txt_cmp_loop (seq 2 (N.to_nat (len a / 255))) a b =
              lcmp (pieces (N.to_nat (len a / 255)) (dropN 255 a)) (pieces (N.to_nat (len b / 255)) (dropN 255 b))).
    { rewrite <- (seq_shift (N.to_nat (len a / 255)) 1). rewrite txt_loop_shift; auto.
      2:{ apply Forall_forall. intros i Hi. apply in_seq in Hi. lia. }
      rewrite (div_step (len a)), (div_step (len b)) by lia. rewrite <- !len_dropN.
      apply (IH (List.length (dropN 255 a))); auto.
      rewrite <- !len_length. rewrite len_dropN. rewrite <- len_length in Hn. lia. }
    destruct (bytes_cmp (takeN 255 a) (takeN 255 b)); auto.
Qed.

Lemma txt_pieces_data d : concat (map (@tl N) (txt_pieces d)) = d.
Proof.
  unfold txt_pieces. assert (H : forall f d, len d / 255 < N.of_nat f -> concat (map (@tl N) (pieces f d)) = d).
  { induction f as [|f IH]; intros x Hx; [revert Hx; generalize (len x / 255); lia|]. cbn [pieces].
    destruct (len x <? 255) eqn:E.
    - cbn. apply app_nil_r.
    - apply N.ltb_ge in E. cbn [map concat tl]. rewrite IH; [apply takeN_dropN|].
      rewrite len_dropN. rewrite (div_step (len x)) in Hx by lia. revert Hx. generalize ((len x - 255) / 255). lia. }
  apply H. generalize (len d / 255). lia.
Qed.

(** The comparison key of a record. *)
Definition rr_key (r : RR) : list (list N) :=
  [rr_variant r] :: rr_name r ::
  match r with
  | RR_A x => [a_addr x] | RR_AAAA x => [a6_addr x] | RR_NS x => [nr_server x]
  | RR_Txt x => txt_pieces (tx_data x)
  | RR_TLSA x => [[tl_usage x]; [tl_selector x]; [tl_data_ty x]; tl_data x]
  | RR_CName x => [cn_canonical x] | RR_DName x => [dn_delegation x]
  | RR_DnsKey x => [[dk_flags x]; [dk_protocol x]; [dk_alg x]; dk_pubkey x]
  | RR_DS x => [[ds_key_tag x]; [ds_alg x]; [ds_digest_type x]; ds_digest x]
  | RR_RRSig x => [[rs_ty x]; [rs_alg x]; [rs_labels x]; [rs_orig_ttl x]; [rs_expiration x]; [rs_inception x];
                   [rs_key_tag x]; rs_key_name x; rs_signature x]
  | RR_NSec x => [ns_next x; ns_types x]
  | RR_NSec3 x => [[n3_algo x]; [n3_flags x]; [n3_iters x]; n3_salt x; n3_next_hash x; n3_types x]
  end.

Lemma cmp1 x y : bytes_cmp [x] [y] = (x ?= y).
Proof. cbn. destruct (x ?= y); reflexivity. Qed.
Lemma then_eq c : then_cmp c Eq = c.
Proof. destruct c; reflexivity. Qed.

Lemma rr_cmp_key a b : rr_cmp a b = lcmp (rr_key a) (rr_key b).
Proof.
  destruct a, b; try reflexivity;
  unfold rr_cmp, rr_key, pair_cmp, txt_cmp, tlsa_cmp, dnskey_cmp, ds_cmp, rrsig_cmp, nsec_cmp, nsec3_cmp;
  cbn [lcmp rr_variant rr_name]; rewrite ?cmp1, ?N.compare_refl, ?then_eq; try reflexivity.
  cbn [then_cmp]. rewrite (txt_cmp_pieces _ (tx_data r) (tx_data r0) (le_n _)). reflexivity.
Qed.

Lemma rr_key_inj a b : rr_key a = rr_key b -> a = b.
Proof.
  destruct a, b; unfold rr_key; cbn [rr_variant rr_name]; intros H; try discriminate;
    try (destruct r, r0; cbn in *; inversion H; subst; reflexivity).
  destruct r as [n d], r0 as [n0 d0]. cbn [tx_name tx_data] in H. inversion H as [[H1 H2]].
  rewrite <- (txt_pieces_data d), <- (txt_pieces_data d0), H2. reflexivity.
Qed.

Lemma rr_cmp_eq a b : rr_cmp a b = Eq <-> a = b.
Proof. rewrite rr_cmp_key, lcmp_eq. split; [apply rr_key_inj|congruence]. Qed.
Lemma rr_cmp_antisym a b : rr_cmp b a = CompOpp (rr_cmp a b).
Proof. rewrite !rr_cmp_key. apply lcmp_antisym. Qed.
Lemma rr_cmp_trans a b c : rr_cmp a b = Lt -> rr_cmp b c = Lt -> rr_cmp a c = Lt.
Proof. rewrite !rr_cmp_key. apply lcmp_trans. Qed.

(** Sorting. *)
Definition rr_le (a b : RR) : Prop := rr_cmp a b <> Gt.
Lemma rr_le_trans a b c : rr_le a b -> rr_le b c -> rr_le a c.
Proof.
  unfold rr_le. intros H1 H2. destruct (rr_cmp a b) eqn:E1; try congruence.
  - apply rr_cmp_eq in E1. subst. auto.
  - destruct (rr_cmp b c) eqn:E2; try congruence.
    + apply rr_cmp_eq in E2. subst. congruence.
    + rewrite (rr_cmp_trans a b c); congruence.
Qed.
Lemma rr_gt_lt a b : rr_cmp a b = Gt -> rr_cmp b a = Lt.
Proof. intros H. rewrite rr_cmp_antisym, H. reflexivity. Qed.

Lemma insert_comm x y l : insert_by rr_cmp x (insert_by rr_cmp y l) = insert_by rr_cmp y (insert_by rr_cmp x l).
Proof.
  assert (XY : forall t, (if match rr_cmp x y with Gt => true | _ => false end then y :: x :: t else x :: y :: t)
                       = (if match rr_cmp y x with Gt => true | _ => false end then x :: y :: t else y :: x :: t)).
  { intros t. rewrite (rr_cmp_antisym x y). destruct (rr_cmp x y) eqn:E; cbn; auto.
    apply rr_cmp_eq in E. subst. reflexivity. }
  induction l as [|z l IH]; cbn [insert_by].
  - specialize (XY []). destruct (rr_cmp x y), (rr_cmp y x); cbn in *; congruence.
  - destruct (rr_cmp y z) eqn:Ey.
    1,2: cbn [insert_by]; destruct (rr_cmp x z) eqn:Ex.
    1,2,4,5: cbn [insert_by]; rewrite ?Ex, ?Ey; specialize (XY (z :: l)); destruct (rr_cmp x y), (rr_cmp y x); cbn in *; congruence.
    + (* y = z, x > z *)
      cbn [insert_by]. rewrite Ey. apply rr_cmp_eq in Ey. subst. rewrite Ex. reflexivity.
    + cbn [insert_by]. rewrite Ey. assert (G : rr_cmp x y = Gt).
      { rewrite rr_cmp_antisym. rewrite (rr_cmp_trans y z x); auto. apply rr_gt_lt; auto. }
      rewrite G. reflexivity.
    + cbn [insert_by]. destruct (rr_cmp x z) eqn:Ex; cbn [insert_by]; rewrite ?Ey.
      * apply rr_cmp_eq in Ex. subst. rewrite Ey. reflexivity.
      * assert (G : rr_cmp y x = Gt).
        { rewrite rr_cmp_antisym. rewrite (rr_cmp_trans x z y); auto. apply rr_gt_lt; auto. }
        rewrite G. reflexivity.
      * rewrite IH. reflexivity.
Qed.
Lemma sort_unique l l' : Permutation l l' -> sort_by rr_cmp l = sort_by rr_cmp l'.
Proof.
  induction 1; cbn [sort_by]; try congruence. apply insert_comm.
Qed.

Lemma insert_sorted x l : StronglySorted rr_le l -> StronglySorted rr_le (insert_by rr_cmp x l).
Proof.
  assert (P : forall x l, Forall (rr_le x) l -> forall y, rr_le x y -> Forall (rr_le x) (insert_by rr_cmp y l)).
  { intros z m Hm y Hy. induction Hm as [|w m Hw Hm IH]; cbn [insert_by]; auto.
    destruct (rr_cmp y w); auto. }
  induction 1 as [|y l Hl IH Hy]; cbn [insert_by].
  - repeat constructor.
  - destruct (rr_cmp x y) eqn:E.
    + constructor; [constructor; auto|]. apply rr_cmp_eq in E. subst. constructor; auto. unfold rr_le. destruct (rr_cmp y y) eqn:F; try congruence.
      assert (F' : rr_cmp y y = Eq) by (apply rr_cmp_eq; reflexivity). congruence.
    + constructor; [constructor; auto|]. assert (L : rr_le x y) by (unfold rr_le; congruence).
      constructor; auto. eapply Forall_impl; [|exact Hy]. intros z Hz. eapply rr_le_trans; eauto.
    + constructor; auto. apply P; auto. unfold rr_le. rewrite rr_cmp_antisym, E. discriminate.
Qed.
Lemma sort_sorted l : StronglySorted rr_le (sort_by rr_cmp l).
Proof. induction l; cbn [sort_by]; [constructor|apply insert_sorted; auto]. Qed.

(** ** RFC 4034 6.3: order of the RDATA as octet strings *)

Lemma bytes_cmp_app x y s t : len x = len y -> bytes_cmp (x ++ s) (y ++ t) = then_cmp (bytes_cmp x y) (bytes_cmp s t).
Proof.
  revert y. induction x as [|c x IH]; intros [|d y] H; try (rewrite ?len_cons, ?len_nil in H; lia); [reflexivity|].
  rewrite !len_cons in H. cbn. destruct (c ?= d); auto. apply IH. lia.
Qed.

Lemma cmp_be16 x y : x < 65536 -> y < 65536 -> bytes_cmp (be16 x) (be16 y) = (x ?= y).
Proof.
  intros Hx Hy. rewrite !be16_u16 by assumption. unfold u16. cbn [bytes_cmp].
  pose proof (N.div_mod x 256 ltac:(discriminate)). pose proof (N.div_mod y 256 ltac:(discriminate)).
  pose proof (N.mod_lt x 256 ltac:(discriminate)). pose proof (N.mod_lt y 256 ltac:(discriminate)).
  set (xq := x / 256) in *. set (yq := y / 256) in *. set (xr := x mod 256) in *. set (yr := y mod 256) in *. clearbody xq yq xr yr.
  destruct (N.compare_spec xq yq) as [E|E|E].
  - subst. destruct (N.compare_spec xr yr) as [F|F|F]; symmetry.
    + subst. apply N.compare_refl.
    + apply N.compare_lt_iff. lia.
    + apply N.compare_gt_iff. lia.
  - symmetry. apply N.compare_lt_iff. lia.
  - symmetry. apply N.compare_gt_iff. lia.
Qed.

Definition rdata (r : RR) : list N := skipn 2 (write_data r).

Fixpoint txt_wire (fuel : nat) (d : list N) : list N :=
  match fuel with
  | O => []
  | S f => if len d <=? 255 then len d :: d else (255 :: takeN 255 d) ++ txt_wire f (dropN 255 d)
  end.

Lemma txt_wire_loop f : forall g d, (List.length d <= f)%nat -> (List.length d < g)%nat ->
  N.min 255 (len d) :: txt_write_loop f d = txt_wire g d.
Proof.
  induction f as [|f IH]; intros g d Hf Hg.
  - destruct d; [|cbn in Hf; lia]. destruct g; [lia|]. reflexivity.
  - destruct g as [|g]; [lia|]. cbn [txt_write_loop txt_wire]. cbv zeta.
    destruct (is_nil d) eqn:En.
    { apply is_nil_true in En. subst. reflexivity. }
    destruct (len d <=? 255) eqn:E.
    + apply N.leb_le in E. rewrite N.min_r by lia. rewrite (takeN_all (len d) d), (dropN_all (len d) d) by lia.
      cbn [is_nil app]. destruct f; cbn [txt_write_loop is_nil]; rewrite app_nil_r; reflexivity.
    + apply N.leb_gt in E. rewrite N.min_l by lia.
      assert (L : (List.length (dropN 255 d) = List.length d - 255)%nat).
      { rewrite <- !len_length, len_dropN. lia. }
      rewrite <- len_length in Hf, Hg.
      assert (Hn : is_nil (dropN 255 d) = false).
      { apply is_nil_false. intros G. apply (f_equal len) in G. rewrite len_dropN, len_nil in G. lia. }
      rewrite Hn. cbn [app]. f_equal. f_equal. apply IH; rewrite <- len_length, len_dropN; lia.
Qed.

Lemma txt_wire_cons g d : (List.length d < g)%nat -> exists c t, txt_wire g d = c :: t /\ (d <> [] -> 1 <= c).
Proof.
  intros Hg. destruct g as [|g]; [lia|]. cbn [txt_wire]. destruct (len d <=? 255) eqn:E.
  - exists (len d), d. split; auto. intros Hd. destruct d; [congruence|]. rewrite len_cons. lia.
  - cbn [app]. eexists _, _. split; [reflexivity|]. lia.
Qed.

Lemma pieces_head f d : d <> [] -> exists c t rest, pieces (S f) d = (c :: t) :: rest /\ 1 <= c.
Proof.
  intros Hd. cbn [pieces]. destruct (len d <? 255).
  - eexists _, _, _. split; [reflexivity|]. destruct d; [congruence|]. rewrite len_cons. lia.
  - eexists _, _, _. split; [reflexivity|]. lia.
Qed.

Lemma cmp_lt a b : a < b -> (a ?= b) = Lt.
Proof. apply N.compare_lt_iff. Qed.
Lemma cmp_gt a b : b < a -> (a ?= b) = Gt.
Proof. apply N.compare_gt_iff. Qed.

Lemma pieces_wire n : forall a b g h p q, (List.length a <= n)%nat -> (List.length a < g)%nat -> (List.length b < h)%nat ->
  len a / 255 < N.of_nat p -> len b / 255 < N.of_nat q ->
  lcmp (pieces p a) (pieces q b) = bytes_cmp (txt_wire g a) (txt_wire h b).
Proof.
  induction n as [n IH] using lt_wf_ind. intros a b g h p q Hn Hg Hh Hp Hq.
  destruct g as [|g]; [lia|]. destruct h as [|h]; [lia|].
  destruct p as [|p]; [revert Hp; generalize (len a / 255); lia|].
  destruct q as [|q]; [revert Hq; generalize (len b / 255); lia|].
  cbn [pieces txt_wire].
  assert (DL : forall d : list N, 255 <= len d -> (List.length (dropN 255 d) = List.length d - N.to_nat 255)%nat).
  { intros d Hd. rewrite <- !len_length, len_dropN. lia. }
  assert (NE : forall d : list N, 255 < len d -> dropN 255 d <> []).
  { intros d Hd G. apply (f_equal len) in G. rewrite len_dropN, len_nil in G. lia. }
  assert (N255 : N.to_nat 255 = 255%nat) by reflexivity.
  rewrite <- len_length in Hg, Hh, Hn.
  destruct (len a <? 255) eqn:Ea; [apply N.ltb_lt in Ea|apply N.ltb_ge in Ea];
    (destruct (len b <? 255) eqn:Eb; [apply N.ltb_lt in Eb|apply N.ltb_ge in Eb]).
  - rewrite (proj2 (N.leb_le (len a) 255)), (proj2 (N.leb_le (len b) 255)) by lia.
    cbn [lcmp]. rewrite then_eq. reflexivity.
  - rewrite (proj2 (N.leb_le (len a) 255)) by lia. cbn [lcmp bytes_cmp].
    rewrite (cmp_lt (len a) 255) by lia. cbn [then_cmp].
    destruct (len b <=? 255) eqn:Eb2.
    + cbn [bytes_cmp]. rewrite cmp_lt by lia. reflexivity.
    + cbn [app bytes_cmp]. rewrite cmp_lt by lia. reflexivity.
  - rewrite (proj2 (N.leb_le (len b) 255)) by lia. cbn [lcmp bytes_cmp].
    rewrite (cmp_gt 255 (len b)) by lia. cbn [then_cmp].
    destruct (len a <=? 255) eqn:Ea2.
    + cbn [bytes_cmp]. rewrite cmp_gt by lia. reflexivity.
    + cbn [app bytes_cmp]. rewrite cmp_gt by lia. reflexivity.
  - cbn [lcmp].
    assert (RA : len (dropN 255 a) / 255 < N.of_nat p).
    { rewrite len_dropN. rewrite (div_step (len a)) in Hp by lia. revert Hp. generalize ((len a - 255) / 255). lia. }
    assert (RB : len (dropN 255 b) / 255 < N.of_nat q).
    { rewrite len_dropN. rewrite (div_step (len b)) in Hq by lia. revert Hq. generalize ((len b - 255) / 255). lia. }
    assert (TA : len (takeN 255 a) = len (takeN 255 b)) by (rewrite !len_takeN by lia; reflexivity).
    destruct (len a <=? 255) eqn:Ea2; [apply N.leb_le in Ea2|apply N.leb_gt in Ea2];
      (destruct (len b <=? 255) eqn:Eb2; [apply N.leb_le in Eb2|apply N.leb_gt in Eb2]).
    + assert (La : len a = 255) by lia. assert (Lb : len b = 255) by lia.
      rewrite (takeN_all 255 a), (takeN_all 255 b), (dropN_all 255 a), (dropN_all 255 b) by lia.
      destruct p; [revert RA; generalize (len (dropN 255 a) / 255); lia|]. destruct q; [revert RB; generalize (len (dropN 255 b) / 255); lia|].
      rewrite La, Lb. cbn [pieces]. change (len (@nil N) <? 255) with true. cbn [lcmp bytes_cmp]. rewrite !N.compare_refl.
      change (len (@nil N) ?= len (@nil N)) with Eq. cbn [then_cmp]. apply then_eq.
    + (* a is exactly one piece *)
      assert (La : len a = 255) by lia. rewrite La, (takeN_all 255 a), (dropN_all 255 a) by lia.
      destruct p; [revert RA; generalize (len (dropN 255 a) / 255); lia|]. destruct q; [revert RB; generalize (len (dropN 255 b) / 255); lia|].
      destruct (pieces_head q (dropN 255 b) (NE b Eb2)) as (c & t & rest & HP & Hc). rewrite HP.
      cbn [pieces]. change (len (@nil N) <? 255) with true. change (len (@nil N)) with 0. cbn [lcmp app].
      rewrite <- (app_nil_r (255 :: a)) at 2. change (255 :: takeN 255 b ++ txt_wire h (dropN 255 b)) with ((255 :: takeN 255 b) ++ txt_wire h (dropN 255 b)).
      rewrite (bytes_cmp_app (255 :: a)).
      2:{ rewrite !len_cons, len_takeN by lia. lia. }
      f_equal. cbn [bytes_cmp]. rewrite (cmp_lt 0 c) by lia. cbn [then_cmp].
      destruct (txt_wire_cons h (dropN 255 b)) as (c' & t' & -> & _); [|reflexivity].
      rewrite <- len_length, len_dropN. lia.
    + assert (Lb : len b = 255) by lia. rewrite Lb, (takeN_all 255 b), (dropN_all 255 b) by lia.
      destruct p; [revert RA; generalize (len (dropN 255 a) / 255); lia|]. destruct q; [revert RB; generalize (len (dropN 255 b) / 255); lia|].
      destruct (pieces_head p (dropN 255 a) (NE a Ea2)) as (c & t & rest & HP & Hc). rewrite HP.
      cbn [pieces]. change (len (@nil N) <? 255) with true. change (len (@nil N)) with 0. cbn [lcmp app].
      rewrite <- (app_nil_r (255 :: b)) at 2. change (255 :: takeN 255 a ++ txt_wire g (dropN 255 a)) with ((255 :: takeN 255 a) ++ txt_wire g (dropN 255 a)).
      rewrite (bytes_cmp_app (255 :: takeN 255 a)).
      2:{ rewrite !len_cons, len_takeN by lia. lia. }
      f_equal. cbn [bytes_cmp]. rewrite (cmp_gt c 0) by lia. cbn [then_cmp].
      destruct (txt_wire_cons g (dropN 255 a)) as (c' & t' & -> & _); [|reflexivity].
      rewrite <- len_length, len_dropN. lia.
    + rewrite (bytes_cmp_app (255 :: takeN 255 a)) by (rewrite !len_cons; lia). f_equal.
      eapply (IH (List.length (dropN 255 a))); auto; rewrite <- len_length, len_dropN; lia.
Qed.

Lemma txt_rdata_cmp a b : txt_data_cmp (tx_data a) (tx_data b) = bytes_cmp (rdata (RR_Txt a)) (rdata (RR_Txt b)).
Proof.
  rewrite (txt_cmp_pieces _ _ _ (le_n _)). unfold rdata. cbn [write_data]. unfold txt_write. cbv zeta.
  cbn [be16 app skipn].
  rewrite (txt_wire_loop _ (S (List.length (tx_data a))) (tx_data a)), (txt_wire_loop _ (S (List.length (tx_data b))) (tx_data b)) by lia.
  unfold txt_pieces. eapply pieces_wire with (n := List.length (tx_data a)); try lia.
Qed.

(** The types whose records are hashed in canonical order. *)
Definition octet_ordered (ty : N) : Prop := In ty [1; 28; 16; 52; 48; 43].

Lemma skip_be16 x y : skipn 2 (be16 x ++ y) = y.
Proof. reflexivity. Qed.
Lemma rr_cmp_rdata nameP a b : typed_rr nameP a -> typed_rr nameP b -> rr_name a = rr_name b -> rr_ty a = rr_ty b ->
  octet_ordered (rr_ty a) -> rr_cmp a b = bytes_cmp (rdata a) (rdata b).
Proof.
  intros Ha Hb Hn Ht Ho.
  destruct a, b; try discriminate Ht; cbn [rr_ty] in Ho; unfold octet_ordered in Ho;
    try (exfalso; cbn in Ho; repeat destruct Ho as [Ho|Ho]; solve [discriminate|contradiction]).
  - cbn [rr_cmp rr_name] in *. unfold pair_cmp. rewrite Hn, bytes_cmp_refl. reflexivity.
  - cbn [rr_cmp rr_name] in *. unfold pair_cmp. rewrite Hn, bytes_cmp_refl. reflexivity.
  - cbn [rr_cmp rr_name] in *. unfold txt_cmp. rewrite Hn, bytes_cmp_refl. cbn [then_cmp]. apply txt_rdata_cmp.
  - cbn [rr_cmp rr_name] in *. unfold tlsa_cmp, rdata. rewrite Hn, bytes_cmp_refl. cbn [write_data tlsa_write be16 app skipn bytes_cmp then_cmp].
    destruct (tl_usage r ?= tl_usage r0); auto. cbn [then_cmp].
    destruct (tl_selector r ?= tl_selector r0); auto. cbn [then_cmp].
    destruct (tl_data_ty r ?= tl_data_ty r0); auto.
  - cbn [rr_cmp rr_name typed_rr] in *. unfold dnskey_cmp, rdata. rewrite Hn, bytes_cmp_refl. cbn [write_data then_cmp]. unfold dnskey_write.
    rewrite !skip_be16, bytes_cmp_app by (rewrite !len_be16; reflexivity).
    rewrite cmp_be16 by (apply Ha || apply Hb). destruct (dk_flags r ?= dk_flags r0); auto. cbn [then_cmp app bytes_cmp].
    destruct (dk_protocol r ?= dk_protocol r0); auto. cbn [then_cmp].
    destruct (dk_alg r ?= dk_alg r0); auto.
  - cbn [rr_cmp rr_name typed_rr] in *. unfold ds_cmp, rdata. rewrite Hn, bytes_cmp_refl. cbn [write_data then_cmp]. unfold ds_write.
    rewrite !skip_be16, bytes_cmp_app by (rewrite !len_be16; reflexivity).
    rewrite cmp_be16 by (apply Ha || apply Hb). destruct (ds_key_tag r ?= ds_key_tag r0); auto. cbn [then_cmp app bytes_cmp].
    destruct (ds_alg r ?= ds_alg r0); auto. cbn [then_cmp].
    destruct (ds_digest_type r ?= ds_digest_type r0); auto.
Qed.

(** Octet-string order, with equality. *)
Definition octets_le (a b : list N) : Prop := a = b \/ lex N.lt a b.
Lemma octets_le_cmp a b : bytes_cmp a b <> Gt <-> octets_le a b.
Proof.
  unfold octets_le. rewrite <- bytes_cmp_lex, <- bytes_cmp_eq. destruct (bytes_cmp a b); intuition congruence.
Qed.

Lemma sorted_rdata nameP rs n ty : Forall (typed_rr nameP) rs -> Forall (fun r => rr_name r = n /\ rr_ty r = ty) rs ->
  octet_ordered ty -> StronglySorted (fun a b => octets_le (rdata a) (rdata b)) (sort_by rr_cmp rs).
Proof.
  intros Ht Hn Ho. pose proof (sort_sorted rs) as S.
  assert (P : Permutation rs (sort_by rr_cmp rs)).
  { clear. induction rs as [|x l IH]; cbn [sort_by]; [auto|].
    transitivity (x :: sort_by rr_cmp l); [constructor; auto|]. clear. generalize (sort_by rr_cmp l).
    intros m. induction m as [|y m IH]; cbn [insert_by]; [auto|].
    destruct (rr_cmp x y); auto. rewrite perm_swap. constructor. exact IH. }
  assert (A : Forall (fun r => typed_rr nameP r /\ rr_name r = n /\ rr_ty r = ty) (sort_by rr_cmp rs)).
  { rewrite <- P. rewrite Forall_forall in *. auto. }
  clear P. induction S as [|x l Sl IH Hx]; [constructor|]. inversion A as [|? ? Ax Al]; subst. constructor; auto.
  rewrite Forall_forall in *. intros y Hy. specialize (Hx y Hy). specialize (Al y Hy).
  apply octets_le_cmp. rewrite <- (rr_cmp_rdata nameP x y); auto; intuition congruence.
Qed.
