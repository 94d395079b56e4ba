(** Lemmas about [QueryBuf]. *)
From Verif Require Import Base BaseP NameM WireM QueryM.
From Coq Require Import Lia.
Local Open Scope N_scope.

Section Limit.
Variable lim : N.
(** The buffer [q] holds the bytes [v]. *)
Definition qrep (q : qbuf) (v : bytes) : Prop :=
  qb_len q = len v /\ len (qb_buf q) = lim /\ len v <= 65535 /\
  (len v <= lim -> exists s, qb_buf q = v ++ s) /\ (lim < len v -> qb_heap q = v).

Lemma len_repeat {A} (x : A) n : len (repeat x (N.to_nat n)) = n.
Proof. unfold len. rewrite repeat_length. lia. Qed.

Lemma qrep_deref q v : qrep q v -> deref_at lim q = v.
Proof.
  intros (L & B & M & I & H). unfold deref_at. rewrite L. destruct (N.ltb_spec lim (len v)); [auto|].
  destruct I as [s ->]; [lia|]. apply takeN_app. reflexivity.
Qed.
Lemma qrep_vec q v : qrep q v -> into_vec_at lim q = v.
Proof. exact (qrep_deref q v). Qed.
Lemma qrep_new n : n <= 65535 -> qrep (new_zeroed_at lim n) (repeat 0 (N.to_nat n)).
Proof.
  intros M. unfold new_zeroed_at, qrep. cbn [qb_buf qb_heap qb_len]. rewrite !len_repeat. repeat split; auto.
  - intros L. exists (repeat 0 (N.to_nat (lim - n))). rewrite <- repeat_app. f_equal. lia.
  - intros L. destruct (N.ltb_spec lim n); [reflexivity|lia].
Qed.
Lemma qrep_fill q v d : qrep q v -> len d = len v -> qrep (fill_at lim q d) d.
Proof.
  intros (L & B & M & I & H) E. unfold fill_at. rewrite L. destruct (N.ltb_spec lim (len v)).
  - unfold qrep. cbn [qb_buf qb_heap qb_len]. repeat split; try (rewrite ?E; auto; fail); lia.
  - destruct I as [s Es]; [lia|]. unfold qrep. cbn [qb_buf qb_heap qb_len]. rewrite E. unfold copy_at.
    rewrite takeN_0. cbn [app]. split; [reflexivity|].
    rewrite len_app, len_dropN, B. split; [lia|]. split; [lia|]. split; [eauto|lia].
Qed.

Lemma extend_ok q v sl : qrep q v -> len v + len sl <= 65535 ->
  exists q', extend_at lim q sl = Ok q' /\ qrep q' (v ++ sl).
Proof.
  intros (L & B & M & I & H) T. unfold extend_at. rewrite L.
  rewrite as_u16_small by lia. rewrite N.min_r by lia.
  destruct (N.ltb_spec lim (len v + len sl)) as [G|G].
  - assert (R : exists h, (if xorb (lim <? len v) true then copy_at (repeat 0 (N.to_nat (len v + len sl))) 0 (takeN (len v) (qb_buf q))
        else qb_heap q) = v ++ h /\ (len h = 0 \/ len h = len sl)).
    { destruct (N.ltb_spec lim (len v)); cbn [xorb].
      - exists []. rewrite app_nil_r. rewrite H by lia. auto.
      - destruct I as [s ->]; [lia|]. rewrite (takeN_app _ v s) by reflexivity. eexists. unfold copy_at. rewrite takeN_0. cbn [app].
        split; [reflexivity|]. right. rewrite len_dropN, len_repeat. lia. }
    destruct R as (h & -> & Lh).
    assert (R : exists h', resize0 (v ++ h) (len v + len sl) = v ++ h' /\ len h' = len sl).
    { unfold resize0. rewrite takeN_all by (rewrite len_app; lia). rewrite <- app_assoc. eexists. split; [reflexivity|].
      rewrite !len_app, len_repeat. lia. }
    destruct R as (h' & -> & Lh'). rewrite (dropN_app _ v h') by reflexivity. rewrite Lh', N.eqb_refl. cbn [negb].
    eexists. split; [reflexivity|]. unfold qrep. cbn [qb_buf qb_heap qb_len]. unfold copy_at.
    rewrite (takeN_app _ v h') by reflexivity. rewrite dropN_all by (rewrite len_app; lia). rewrite app_nil_r.
    rewrite len_app. repeat split; auto; lia.
  - replace (lim <? len v) with false by (symmetry; apply N.ltb_ge; lia). cbn [xorb].
    replace (len v + len sl - len v) with (len sl) by lia. rewrite N.eqb_refl. cbn [negb].
    eexists. split; [reflexivity|]. destruct I as [s Es]; [lia|]. rewrite Es in *.
    unfold qrep. cbn [qb_buf qb_heap qb_len]. unfold copy_at. rewrite (takeN_app _ v s) by reflexivity.
    rewrite len_app in *. split; [reflexivity|]. split; [rewrite !len_app, len_dropN, len_app; lia|].
    split; [lia|]. split; [|lia]. intros _. eexists. rewrite <- app_assoc. reflexivity.
Qed.

Lemma extend_panic q v sl : qrep q v -> 65535 < len v + len sl -> extend_at lim q sl = Panic.
Proof.
  intros (L & B & M & I & H) T. unfold extend_at. rewrite L.
  set (nl := N.min 65535 (len v + as_u16 (len sl))).
  assert (N1 : nl <= 65535) by (unfold nl; lia). assert (N2 : len v <= nl) by (unfold nl; lia).
  assert (N3 : nl - len v <> len sl) by lia.
  assert (Q : (nl - len v =? len sl) = false) by (apply N.eqb_neq; exact N3).
  clearbody nl. cbv zeta.
  destruct (N.ltb_spec lim nl) as [G|G].
  - match goal with |- context [resize0 ?h nl] => set (hh := h); assert (Lr : len (resize0 hh nl) = nl) end.
    { unfold resize0. rewrite len_app, len_takeN_min, len_repeat. lia. }
    rewrite len_dropN, Lr, Q. reflexivity.
  - rewrite Q. reflexivity.
Qed.

Lemma extends_ok sls : forall q v, qrep q v -> len v + len (concat sls) <= 65535 ->
  exists q', extends_at lim q sls = Ok q' /\ qrep q' (v ++ concat sls).
Proof.
  induction sls as [|s t IH]; intros q v R T; cbn [concat extends_at] in *.
  - exists q. rewrite app_nil_r. auto.
  - rewrite len_app in T. destruct (extend_ok q v s R) as (q' & -> & R'); [lia|]. cbn [obind].
    destruct (IH q' _ R') as (q'' & -> & R''); [rewrite len_app; lia|]. exists q''. rewrite app_assoc. auto.
Qed.
Lemma extends_panic sls : forall q v, qrep q v -> 65535 < len v + len (concat sls) -> extends_at lim q sls = Panic.
Proof.
  induction sls as [|s t IH]; intros q v R T; cbn [concat extends_at] in *.
  - rewrite len_nil in T. destruct R. lia.
  - rewrite len_app in T. destruct (N.le_gt_cases (len v + len s) 65535).
    + destruct (extend_ok q v s R) as (q' & -> & R'); [lia|]. cbn [obind]. apply (IH q' _ R'). rewrite len_app. lia.
    + rewrite (extend_panic q v s R) by lia. reflexivity.
Qed.

(** Any buffer obtained from [new_zeroed] by appends. *)
Lemma buffer_contents_at n sls : n <= 65535 -> n + len (concat sls) <= 65535 ->
  exists q, extends_at lim (new_zeroed_at lim n) sls = Ok q /\ deref_at lim q = repeat 0 (N.to_nat n) ++ concat sls /\
    into_vec_at lim q = repeat 0 (N.to_nat n) ++ concat sls /\ qb_len q = n + len (concat sls).
Proof.
  intros M T. destruct (extends_ok sls _ _ (qrep_new n M)) as (q & E & R); [rewrite len_repeat; lia|].
  exists q. split; [exact E|]. split; [apply qrep_deref; exact R|]. split; [apply qrep_vec; exact R|].
  destruct R as (-> & _). rewrite len_app, len_repeat. reflexivity.
Qed.
Lemma buffer_panic_at n sls : n <= 65535 -> (extends_at lim (new_zeroed_at lim n) sls = Panic <-> 65535 < n + len (concat sls)).
Proof.
  intros M. split.
  - intros P. destruct (N.le_gt_cases (n + len (concat sls)) 65535) as [L|L]; [|lia].
    destruct (buffer_contents_at n sls M L) as (q & E & _). congruence.
  - intros L. apply (extends_panic sls _ _ (qrep_new n M)). rewrite len_repeat. exact L.
Qed.
End Limit.

(** In a build for use. *)
Lemma buffer_contents n sls : n <= 65535 -> n + len (concat sls) <= 65535 ->
  exists q, extends (new_zeroed n) sls = Ok q /\ qb_deref q = repeat 0 (N.to_nat n) ++ concat sls /\
    into_vec q = repeat 0 (N.to_nat n) ++ concat sls /\ qb_len q = n + len (concat sls).
Proof. exact (buffer_contents_at STACK_BUF_LIMIT n sls). Qed.
Lemma buffer_panic n sls : n <= 65535 -> (extends (new_zeroed n) sls = Panic <-> 65535 < n + len (concat sls)).
Proof. exact (buffer_panic_at STACK_BUF_LIMIT n sls). Qed.
Lemma buffer_eq a b : qbuf_eqb a b = true -> qb_deref a = qb_deref b.
Proof.
  intros E. unfold qbuf_eqb in E. apply andb_true_iff in E as [E E3]. apply andb_true_iff in E as [E1 E2].
  apply bytes_eqb_eq in E1, E2. apply N.eqb_eq in E3. unfold qb_deref, deref_at. rewrite E1, E2, E3. reflexivity.
Qed.
(** Buffers which never left the stack. *)
Definition small (q : qbuf) (v : bytes) : Prop :=
  q = {| qb_buf := v ++ repeat 0 (N.to_nat (2048 - len v)); qb_heap := []; qb_len := len v |}.
Lemma extends_small sls : forall q v, small q v -> len v + len (concat sls) <= 2048 ->
  exists q', extends_at STACK_BUF_LIMIT q sls = Ok q' /\ small q' (v ++ concat sls).
Proof.
  induction sls as [|s t IH]; intros q v S L; cbn [extends_at concat] in *.
  - exists q. rewrite app_nil_r. auto.
  - rewrite len_app in L. unfold extend_at. rewrite S. cbn [qb_len qb_heap qb_buf]. unfold STACK_BUF_LIMIT.
    rewrite as_u16_small by lia. rewrite N.min_r by lia.
    replace (2048 <? len v) with false by (symmetry; apply N.ltb_ge; lia).
    replace (2048 <? len v + len s) with false by (symmetry; apply N.ltb_ge; lia). cbn [xorb].
    replace (len v + len s - len v) with (len s) by lia. rewrite N.eqb_refl. cbn [negb obind].
    rewrite app_assoc. apply IH; [|rewrite len_app; lia]. unfold small. unfold copy_at. rewrite takeN_app by reflexivity.
    rewrite len_app. f_equal. rewrite <- app_assoc. do 2 f_equal.
    replace (N.to_nat (2048 - len v)) with (N.to_nat (len s) + N.to_nat (2048 - (len v + len s)))%nat by lia.
    rewrite repeat_app, app_assoc. apply dropN_app. rewrite len_app, len_repeat. reflexivity.
Qed.
Lemma buffer_eq_small sls tls : len (concat sls) <= 2048 -> len (concat tls) <= 2048 ->
  exists a b, extends (new_zeroed 0) sls = Ok a /\ extends (new_zeroed 0) tls = Ok b /\
    (qbuf_eqb a b = true <-> concat sls = concat tls).
Proof.
  intros L1 L2. assert (S0 : small (new_zeroed 0) []) by reflexivity.
  destruct (extends_small sls _ _ S0 L1) as (a & E1 & S1). destruct (extends_small tls _ _ S0 L2) as (b & E2 & S2).
  exists a, b. split; [exact E1|]. split; [exact E2|]. cbn [app] in *. split.
  - intros E. apply buffer_eq in E. rewrite S1, S2 in E. unfold qb_deref, deref_at in E. cbn [qb_len qb_buf qb_heap] in E. unfold STACK_BUF_LIMIT in E.
    replace (2048 <? len (concat sls)) with false in E by (symmetry; apply N.ltb_ge; lia).
    replace (2048 <? len (concat tls)) with false in E by (symmetry; apply N.ltb_ge; lia).
    rewrite !takeN_app in E by reflexivity. exact E.
  - intros E. rewrite S1, S2, E. unfold qbuf_eqb. cbn [qb_len qb_buf qb_heap]. rewrite !bytes_eqb_refl, N.eqb_refl. reflexivity.
Qed.
Lemma buffer_fill n d : n <= 65535 -> len d = n -> qb_deref (qb_fill (new_zeroed n) d) = d.
Proof. intros M L. apply (qrep_deref STACK_BUF_LIMIT). eapply qrep_fill; [apply qrep_new; exact M|]. rewrite len_repeat. exact L. Qed.

(** Equal contents, unequal buffers. *)
Lemma buffer_eq_refuted : ~ (forall sls tls a b, extends (new_zeroed 0) sls = Ok a -> extends (new_zeroed 0) tls = Ok b ->
  (qbuf_eqb a b = true <-> qb_deref a = qb_deref b)).
Proof.
  intros H.
  destruct (extends (new_zeroed 0) [[1]; repeat 0 (N.to_nat 2048)]) as [a| | |] eqn:Ea; [|vm_compute in Ea; discriminate..].
  destruct (extends (new_zeroed 0) [1 :: repeat 0 (N.to_nat 2048)]) as [b| | |] eqn:Eb; [|vm_compute in Eb; discriminate..].
  specialize (H _ _ _ _ Ea Eb). destruct H as [_ H].
  assert (D : qb_deref a = qb_deref b).
  { vm_compute in Ea. vm_compute in Eb. injection Ea as <-. injection Eb as <-. vm_compute. reflexivity. }
  specialize (H D). vm_compute in Ea. vm_compute in Eb. injection Ea as <-. injection Eb as <-. vm_compute in H. discriminate.
Qed.
Lemma buffer_panic_refuted : ~ (forall sls, extends (new_zeroed 0) sls <> Panic).
Proof.
  intros H. apply (H [repeat 0 (N.to_nat 65535); [1]]). apply buffer_panic; [lia|]. cbn [concat].
  rewrite !len_app, len_repeat. reflexivity.
Qed.
