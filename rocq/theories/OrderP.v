(** How far the verdict of [verify_rr_stream] depends on the order of its input, and on records which
    no RRSIG covers. *)
From Verif Require Import Base BaseP NameM NameSpec NameP WireM RRM SerM ValM RecSpec ValSpec ValP ValP2 ValP3 ValP4 ValP5 OrdRR OrderSpec.
From Coq Require Import Permutation.
Local Open Scope N_scope.

(** ** The parts of the input the code looks at *)
Lemma covered_ext_steps e dbg inp inp' : rrsigs inp = rrsigs inp' ->
  (forall s, In s (rrsigs inp) -> covered inp s = covered inp' s) ->
  (forall z, dnskey_rrsigs inp z <> [] -> zone_dnskeys inp z = zone_dnskeys inp' z) ->
  forall fuel st, zone_loop e dbg inp fuel st = zone_loop e dbg inp' fuel st.
Proof.
  intros Hs Hc Hk. assert (Z : forall st, zone_step e dbg inp st = zone_step e dbg inp' st).
  - intros st. unfold zone_step. destruct (pop_zone st) as [st1 nd]. destruct (if bytes_eqb _ _ then _ else _) as [dses|]; [| reflexivity].
    assert (D : dnskey_rrsigs inp' (v_zone st1) = dnskey_rrsigs inp (v_zone st1)) by (unfold dnskey_rrsigs; rewrite Hs; reflexivity).
    assert (R : zone_rrsigs inp' (v_zone st1) = zone_rrsigs inp (v_zone st1)) by (unfold zone_rrsigs; rewrite Hs; reflexivity).
    rewrite D, R. destruct (dnskey_rrsigs inp (v_zone st1)) as [| d0 ds0] eqn:ED.
    + unfold verify_dnskeys. destruct (is_nil dses); [reflexivity |]. destruct (negb _); reflexivity.
    + assert (K : zone_dnskeys inp (v_zone st1) = zone_dnskeys inp' (v_zone st1)) by (apply Hk; rewrite ED; discriminate).
      rewrite <- K. destruct (verify_dnskeys _ _ _ _ _) as [s0| | |]; [| reflexivity ..]. cbn [obind].
      assert (S0 : forall l, incl l (rrsigs inp) -> forall st2, sigs_loop e dbg inp (v_zone st1) l st2 = sigs_loop e dbg inp' (v_zone st1) l st2).
      { induction l as [| s l IH]; intros I st2; [reflexivity |]. cbn [sigs_loop].
        assert (E : sig_step e dbg inp (v_zone st1) s st2 = sig_step e dbg inp' (v_zone st1) s st2).
        { unfold sig_step, push_ds. rewrite <- K, (Hc s (I s (or_introl eq_refl))). reflexivity. }
        rewrite E. clear E. destruct (sig_step _ _ _ _ _ _) as [st3| | |]; [| reflexivity ..]. cbn [obind]. apply IH. intros x X. apply I. right. exact X. }
      apply S0. unfold zone_rrsigs. intros x X. apply filter_In in X. tauto.
  - induction fuel as [| f IH]; intros st; cbn [zone_loop]; [reflexivity |]. destruct (_ || _); [| reflexivity]. rewrite Z. destruct (zone_step _ _ _ _) as [st'| | |]; [| reflexivity ..]. cbn [obind]. apply IH.
Qed.
Lemma verify_ext e dbg inp inp' fuel : rrsigs inp = rrsigs inp' ->
  (forall s, In s (rrsigs inp) -> covered inp s = covered inp' s) ->
  (forall z, dnskey_rrsigs inp z <> [] -> zone_dnskeys inp z = zone_dnskeys inp' z) ->
  verify_rr_stream e dbg fuel inp = verify_rr_stream e dbg fuel inp'.
Proof. intros A B C. unfold verify_rr_stream. rewrite (covered_ext_steps e dbg inp inp' A B C). reflexivity. Qed.

(** ** Records which no RRSIG covers *)
Lemma rrsigs_app a b : rrsigs (a ++ b) = rrsigs a ++ rrsigs b.
Proof. unfold rrsigs. apply flat_map_app. Qed.
Lemma unsigned_ignored e dbg fuel a r b : rr_ty r <> 46 ->
  (forall s, In (RR_RRSig s) (a ++ b) -> rs_ty s = rr_ty r -> rs_name s <> rr_name r) ->
  verify_rr_stream e dbg fuel (a ++ r :: b) = verify_rr_stream e dbg fuel (a ++ b).
Proof.
  intros T U. apply verify_ext.
  - rewrite !rrsigs_app. destruct r; try reflexivity. exfalso. apply T. reflexivity.
  - intros s I. unfold covered. rewrite !filter_app. cbn [filter].
    assert (In (RR_RRSig s) (a ++ b)). { apply in_rrsigs in I. apply in_or_app. apply in_app_or in I as [I | [I | I]]; auto. subst r. exfalso. apply T. reflexivity. }
    destruct (bytes_eqb (rr_name r) (rs_name s) && (rr_ty r =? rs_ty s)) eqn:E; [| reflexivity].
    apply andb_true_iff in E as [E1 E2]. apply bytes_eqb_eq in E1. apply N.eqb_eq in E2. exfalso. eapply U; eauto.
  - intros z D. unfold zone_dnskeys. rewrite !flat_map_app, !filter_app. f_equal. destruct r as [r|r|r|r|r|r|r|r|r|r|r|r]; try reflexivity.
    cbn [flat_map as_dnskey app filter]. destruct (bytes_eqb (dk_name r) z) eqn:E; [| reflexivity]. apply bytes_eqb_eq in E. exfalso.
    destruct (dnskey_rrsigs _ z) as [| s l] eqn:ED; [congruence |].
    assert (I : In s (dnskey_rrsigs (a ++ RR_DnsKey r :: b) z)) by (rewrite ED; left; reflexivity).
    apply in_dnskey_rrsigs in I. destruct I as (I & N1 & N2). apply (U s).
    + apply in_app_or in I. apply in_or_app. destruct I as [I | [I | I]]; auto; discriminate.
    + exact N2.
    + cbn. congruence.
Qed.

(** ** Permutations which keep the order of the RRSIGs and of the DNSKEYs *)
Lemma perm_filter {A} (f : A -> bool) l l' : Permutation l l' -> Permutation (filter f l) (filter f l').
Proof. induction 1; cbn [filter]; auto; [destruct (f x); auto | destruct (f x), (f y); auto; constructor | etransitivity; eauto]. Qed.
Lemma perm_existsb {A} (f : A -> bool) l l' : Permutation l l' -> existsb f l = existsb f l'.
Proof. induction 1; cbn [existsb]; auto; [rewrite IHPermutation; reflexivity | destruct (f x), (f y); reflexivity | congruence]. Qed.
Lemma perm_forallb {A} (f : A -> bool) l l' : Permutation l l' -> forallb f l = forallb f l'.
Proof. induction 1; cbn [forallb]; auto; [rewrite IHPermutation; reflexivity | destruct (f x), (f y); reflexivity | congruence]. Qed.
Lemma perm_nil {A} (l l' : list A) : Permutation l l' -> is_nil l = is_nil l'.
Proof. intros P. destruct l, l'; auto; [apply Permutation_nil in P | symmetry in P; apply Permutation_nil in P]; discriminate. Qed.
Lemma verify_dnskeys_perm e dbg sigs d d' keys : Permutation d d' -> verify_dnskeys e dbg sigs d keys = verify_dnskeys e dbg sigs d' keys.
Proof.
  intros P. unfold verify_dnskeys. rewrite (perm_nil d d' P), (perm_existsb _ d d' P).
  assert (V : validated_dnskeys e d keys = validated_dnskeys e d' keys); [| rewrite V; reflexivity].
  unfold validated_dnskeys. apply filter_ext. intros k. unfold trust_sha1. rewrite (perm_forallb _ d d' P). apply perm_existsb, P.
Qed.

Definition SameState (st st' : vstate) : Prop :=
  v_zone st = v_zone st' /\ v_needs st = v_needs st' /\ v_inception st = v_inception st' /\ v_expiry st = v_expiry st' /\ v_ttl st = v_ttl st' /\
  Permutation (v_res st) (v_res st') /\ NoDup (v_res st) /\ Forall2 (fun p q => fst p = fst q /\ Permutation (snd p) (snd q)) (v_pending st) (v_pending st').
Definition same_outcome {E A} (R : A -> A -> Prop) (o o' : outcome E A) : Prop :=
  match o, o' with Ok a, Ok b => R a b | Err x, Err y => x = y | Panic, Panic => True | Loop, Loop => True | _, _ => False end.
Lemma same_bind {E A B} (R : A -> A -> Prop) (Q : B -> B -> Prop) (o o' : outcome E A) f f' : same_outcome R o o' ->
  (forall a a', R a a' -> same_outcome Q (f a) (f' a')) -> same_outcome Q (obind o f) (obind o' f').
Proof. destruct o, o'; cbn; intros H K; try tauto. apply K, H. Qed.

Lemma same_note s st st' : SameState st st' -> SameState (note_sig s st) (note_sig s st').
Proof.
  intros (A & B & C & D & E & F & G & H). unfold SameState, note_sig. cbn [v_zone v_res v_needs v_pending v_inception v_expiry v_ttl].
  rewrite A, B, C, D, E. repeat split; auto.
Qed.
Lemma same_pending (f : list N -> bool) p q : Forall2 (fun p q : list N * list ds => fst p = fst q /\ Permutation (snd p) (snd q)) p q -> existsb (fun x => f (fst x)) p = existsb (fun x => f (fst x)) q.
Proof. induction 1 as [| x y l l' [H _] _ IH]; [reflexivity |]. cbn [existsb]. rewrite H, IH. reflexivity. Qed.
Lemma perm_flat_map {A B} (f : A -> list B) l l' : Permutation l l' -> Permutation (flat_map f l) (flat_map f l').
Proof. apply Permutation_flat_map. Qed.

Section Perm.
  Variables (e : env) (dbg : bool) (inp inp' : list RR).
  Hypothesis HP : Permutation inp inp'.
  Hypothesis HS : rrsigs inp = rrsigs inp'.
  Hypothesis HK : flat_map as_dnskey inp = flat_map as_dnskey inp'.

  Lemma covered_perm s : Permutation (covered inp s) (covered inp' s).
  Proof. apply perm_filter, HP. Qed.
  Lemma same_add rs rs' res res' : Permutation rs rs' -> Permutation res res' -> NoDup res -> Permutation (add_records rs res) (add_records rs' res').
  Proof.
    intros A B C. apply NoDup_Permutation; [apply nodup_add_records; auto | apply nodup_add_records; eapply Permutation_NoDup; eauto |].
    intros x. rewrite !in_add_records. split; intros [H | H]; [left | right | left | right]; eauto using Permutation_in, Permutation_sym.
  Qed.
  Lemma same_sig_step z s st st' : SameState st st' -> same_outcome SameState (sig_step e dbg inp z s st) (sig_step e dbg inp' z s st').
  Proof.
    intros R. unfold sig_step. destruct (negb _); [reflexivity |].
    replace (zone_dnskeys inp' z) with (zone_dnskeys inp z) by (unfold zone_dnskeys; rewrite HK; reflexivity).
    rewrite (verify_rrsig_perm e dbg s (zone_dnskeys inp z) _ _ (covered_perm s)).
    destruct (verify_rrsig _ _ _ _ _) as [[]| [] | |]; cbn [same_outcome]; auto. cbv zeta.
    apply (same_note s) in R. destruct (_ || _); [reflexivity |]. destruct (rs_ty s =? T_DS).
    - cbn [same_outcome]. destruct R as (A & B & C & D & E & F & G & H). unfold push_ds.
      rewrite (same_pending (fun n => bytes_eqb n (rs_name s)) _ _ H). destruct (existsb _ _); [repeat split; auto |].
      unfold SameState. cbn [v_zone v_res v_needs v_pending v_inception v_expiry v_ttl]. repeat split; auto. constructor; auto. cbn [fst snd]. split; [reflexivity |].
      apply perm_flat_map, covered_perm.
    - destruct (wildcard_need dbg s) as [nd| | |]; cbn [obind same_outcome]; auto.
      destruct R as (A & B & C & D & E & F & G & H). unfold SameState. cbn [v_zone v_res v_needs v_pending v_inception v_expiry v_ttl].
      rewrite B. repeat split; auto; [apply same_add; auto; apply covered_perm | apply nodup_add_records; auto].
  Qed.
  Lemma same_sigs z sigs : forall st st', SameState st st' -> same_outcome SameState (sigs_loop e dbg inp z sigs st) (sigs_loop e dbg inp' z sigs st').
  Proof.
    induction sigs as [| s l IH]; intros st st' R; cbn [sigs_loop]; [exact R |]. eapply same_bind; [apply same_sig_step, R |]. intros. apply IH. auto.
  Qed.
  Lemma same_zone st st' : SameState st st' -> same_outcome SameState (zone_step e dbg inp st) (zone_step e dbg inp' st').
  Proof.
    intros R. unfold zone_step.
    assert (X : exists st1 st1' nd nd', pop_zone st = (st1, nd) /\ pop_zone st' = (st1', nd') /\ SameState st1 st1' /\
      match nd, nd' with Some d, Some d' => Permutation d d' | None, None => True | _, _ => False end).
    { destruct R as (A & B & C & D & E & F & G & H). unfold pop_zone. inversion H as [| [n1 d1] [n2 d2] l l' [H1 H2] H3 E1 E2].
      - exists st, st', None, None. repeat split; auto.
      - cbn [fst snd] in H1, H2. do 4 eexists. split; [reflexivity |]. split; [reflexivity |]. split; [| exact H2].
        unfold SameState. cbn [v_zone v_res v_needs v_pending v_inception v_expiry v_ttl]. repeat split; auto. }
    destruct X as (st1 & st1' & nd & nd' & -> & -> & R1 & Hd). assert (Z := proj1 R1). rewrite <- Z.
    replace (zone_dnskeys inp' (v_zone st1)) with (zone_dnskeys inp (v_zone st1)) by (unfold zone_dnskeys; rewrite HK; reflexivity).
    replace (dnskey_rrsigs inp' (v_zone st1)) with (dnskey_rrsigs inp (v_zone st1)) by (unfold dnskey_rrsigs; rewrite HS; reflexivity).
    replace (zone_rrsigs inp' (v_zone st1)) with (zone_rrsigs inp (v_zone st1)) by (unfold zone_rrsigs; rewrite HS; reflexivity).
    assert (G : forall d d', Permutation d d' -> same_outcome SameState
      (s <- verify_dnskeys e dbg (dnskey_rrsigs inp (v_zone st1)) d (zone_dnskeys inp (v_zone st1)) ;; sigs_loop e dbg inp (v_zone st1) (zone_rrsigs inp (v_zone st1)) (note_sig s st1))
      (s <- verify_dnskeys e dbg (dnskey_rrsigs inp (v_zone st1)) d' (zone_dnskeys inp (v_zone st1)) ;; sigs_loop e dbg inp' (v_zone st1) (zone_rrsigs inp (v_zone st1)) (note_sig s st1'))).
    { intros d d' P. rewrite (verify_dnskeys_perm e dbg _ d d' _ P). destruct (verify_dnskeys _ _ _ _ _) as [s| | |]; cbn [obind same_outcome]; auto. apply same_sigs, same_note, R1. }
    destruct (bytes_eqb (v_zone st1) root_name); [apply G; reflexivity |].
    destruct nd as [d|], nd' as [d'|]; try contradiction; [apply G, Hd | exact I].
  Qed.
  Lemma same_zones fuel : forall st st', SameState st st' -> same_outcome SameState (zone_loop e dbg inp fuel st) (zone_loop e dbg inp' fuel st').
  Proof.
    induction fuel as [| f IH]; intros st st' R.
    - cbn [zone_loop]. assert (E : is_nil (v_pending st) = is_nil (v_pending st')) by (destruct R as (_ & _ & _ & _ & _ & _ & _ & H); inversion H; reflexivity).
      rewrite (proj1 R), E. destruct (_ || _); [exact I | exact R].
    - cbn [zone_loop]. assert (E : is_nil (v_pending st) = is_nil (v_pending st')) by (destruct R as (_ & _ & _ & _ & _ & _ & _ & H); inversion H; reflexivity).
      rewrite (proj1 R), E. destruct (_ || _); [| exact R]. eapply same_bind; [apply same_zone, R |]. intros. apply IH. auto.
  Qed.
End Perm.

Lemma find_some_iff {A} (f : A -> bool) l : (exists x, In x l /\ f x = true) <-> find f l <> None.
Proof.
  induction l as [| y l IH]; cbn [find]; [split; [intros (x & [] & _) | congruence] |]. destruct (f y) eqn:E.
  - split; [discriminate |]. intros _. exists y. split; [left; reflexivity | exact E].
  - rewrite <- IH. split; intros (x & H & K); [destruct H as [-> | H]; [congruence |] |]; exists x; cbn; auto.
Qed.

Lemma filter_len {A} (f : A -> bool) l : (length (filter f l) <= length l)%nat.
Proof. induction l as [| x l IH]; cbn [filter length]; [lia |]. destruct (f x); cbn [length]; lia. Qed.

(** ** The proof search when only NSEC records deny, all for one zone *)
Definition dis (res : list RR) (nd : list N * list N * N) : Prop :=
  exists n, In n (nsec_search res (snd (fst nd))) /\ nsec_proves (fst (fst nd)) (snd nd) n = true.
Definition no3 (res : list RR) : Prop := forall n, ~ In (RR_NSec3 n) res.
Lemma no3_search res z : no3 res -> nsec3_search res z = [].
Proof.
  intros H. destruct (nsec3_search res z) as [| n l] eqn:E; [reflexivity |]. exfalso. apply (H n). apply in_nsec3_search with (z := z). rewrite E. left. reflexivity.
Qed.
Lemma discharge_no3 e res nd t : no3 res -> discharge e res nd t =
  match find (nsec_proves (fst (fst nd)) (snd nd)) (nsec_search res (snd (fst nd))) with
  | Some n => Some (retain_needs (fst (fst nd)) (nsec_matches n (fst (fst nd))) (ns_types n) t) | None => None end.
Proof. intros H. destruct nd as [[nm z] ty]. unfold discharge. rewrite (no3_search res z H). cbn [fst snd]. destruct (find _ _); reflexivity. Qed.
Lemma proof_loop_all e res : no3 res -> forall fuel needs, (length needs <= fuel)%nat -> Forall (dis res) needs -> proof_loop e res fuel needs = Ok tt.
Proof.
  intros H. induction fuel as [| f IH]; intros [| nd t] L F; cbn [proof_loop]; try reflexivity; [cbn in L; lia |].
  inversion F as [| ? ? F1 F2]; subst. rewrite discharge_no3 by exact H. apply find_some_iff in F1. destruct (find _ _) as [n|]; [| congruence].
  apply IH.
  - cbn [length] in L. unfold retain_needs. pose proof (filter_len (fun nd0 => negb (bytes_eqb (fst (fst nd0)) (fst (fst nd))) || nsec_matches n (fst (fst nd)) && mask_contains (ns_types n) (snd nd0)) t). lia.
  - rewrite Forall_forall in *. intros x X. apply F2. unfold retain_needs in X. apply filter_In in X. tauto.
Qed.
Lemma need_dec (a b : list N * list N * N) : {a = b} + {a <> b}.
Proof. decide equality; [apply N.eq_dec | decide equality; apply bytes_eq_dec]. Qed.
Lemma proof_loop_only e res z : no3 res -> forall fuel needs, Forall (fun nd => snd (fst nd) = z) needs -> proof_loop e res fuel needs = Ok tt -> Forall (dis res) needs.
Proof.
  intros H. induction fuel as [| f IH]; intros [| nd t] Z O; cbn [proof_loop] in O; try constructor; try discriminate.
  - rewrite discharge_no3 in O by exact H. destruct (find _ _) as [n|] eqn:E; [| discriminate]. apply find_some_iff. congruence.
  - rewrite discharge_no3 in O by exact H. destruct (find _ _) as [n|] eqn:E; [| discriminate]. inversion Z as [| ? ? Z1 Z2]; subst.
    apply find_some in E as [E1 E2]. apply IH in O.
    + rewrite Forall_forall in *. intros x X. destruct (in_dec need_dec x (retain_needs (fst (fst nd)) (nsec_matches n (fst (fst nd))) (ns_types n) t)) as [I | I]; [apply O, I |].
      assert (K : negb (bytes_eqb (fst (fst x)) (fst (fst nd))) || nsec_matches n (fst (fst nd)) && mask_contains (ns_types n) (snd x) = false).
      { destruct (_ || _) eqn:B; [| reflexivity]. exfalso. apply I. unfold retain_needs. apply filter_In. split; [exact X | exact B]. }
      apply orb_false_iff in K as [K1 K2]. apply negb_false_iff, bytes_eqb_eq in K1. exists n. rewrite (Z2 x X), K1. split; [exact E1 |].
      unfold nsec_proves in *. destruct (nsec_matches n (fst (fst nd))); cbn [andb orb] in *; [| exact E2]. rewrite K2. reflexivity.
    + rewrite Forall_forall in *. intros x X. unfold retain_needs in X. apply filter_In in X. apply Z2. tauto.
Qed.
Lemma proof_loop_err e res fuel : forall needs x, proof_loop e res fuel needs = Err x -> x = Invalid.
Proof. induction fuel as [| f IH]; intros [| nd t] x; cbn [proof_loop]; try discriminate. destruct (discharge _ _ _ _); [apply IH | congruence]. Qed.
Lemma proof_loop_panic e res fuel : forall needs, proof_loop e res fuel needs <> Panic.
Proof. induction fuel as [| f IH]; intros [| nd t]; cbn [proof_loop]; try discriminate. destruct (discharge _ _ _ _); [apply IH | discriminate]. Qed.
Lemma dis_perm res res' nd : Permutation res res' -> dis res nd -> dis res' nd.
Proof.
  intros P (n & A & B). exists n. split; [| exact B]. unfold nsec_search in *. eapply Permutation_in; [| exact A]. apply perm_filter, perm_flat_map, P.
Qed.
Lemma proof_loop_perm e res res' z fuel needs : Permutation res res' -> no3 res -> Forall (fun nd => snd (fst nd) = z) needs -> (length needs <= fuel)%nat ->
  proof_loop e res fuel needs = proof_loop e res' fuel needs.
Proof.
  intros P H Z L. assert (H' : no3 res') by (intros n I; apply (H n); eapply Permutation_in; [apply Permutation_sym, P | exact I]).
  assert (G : forall r r', Permutation r r' -> no3 r -> no3 r' -> proof_loop e r fuel needs = Ok tt -> proof_loop e r' fuel needs = Ok tt).
  { intros r r' P0 A B O. apply proof_loop_all; auto. apply (proof_loop_only e r z) in O; auto. eapply Forall_impl; [| exact O]. intros nd. apply dis_perm, P0. }
  assert (N1 := proof_loop_no_loop e res fuel needs L). assert (N2 := proof_loop_no_loop e res' fuel needs L).
  assert (Q1 := proof_loop_panic e res fuel needs). assert (Q2 := proof_loop_panic e res' fuel needs).
  destruct (proof_loop e res fuel needs) as [[]| x | |] eqn:E1, (proof_loop e res' fuel needs) as [[]| y | |] eqn:E2; try congruence.
  - rewrite (G res res' P H H' E1) in E2. discriminate.
  - rewrite (G res' res (Permutation_sym P) H' H E2) in E1. discriminate.
  - apply proof_loop_err in E1, E2. congruence.
Qed.

(** ** Where needs and results come from *)
Definition from_sigs (dbg : bool) (inp : list RR) (st : vstate) : Prop :=
  (forall nd, In nd (v_needs st) -> exists s, In s (rrsigs inp) /\ wildcard_need dbg s = Ok [nd]) /\
  (forall r, In r (v_res st) -> exists s, In s (rrsigs inp) /\ rs_ty s = rr_ty r).
Lemma wildcard_one dbg s l nd : wildcard_need dbg s = Ok l -> In nd l -> l = [nd].
Proof.
  unfold wildcard_need. intros H I. destruct (_ && _); [| inversion H; subst; destruct I].
  destruct (rs_ty s =? T_NSEC3); [discriminate |]. destruct (dbg && _); [discriminate |]. destruct (trailing_n_labels _ _); [| discriminate]. inversion H; subst. destruct I as [<- | []]. reflexivity.
Qed.
Lemma from_sig_step e dbg inp z s st st' : In s (rrsigs inp) -> from_sigs dbg inp st -> sig_step e dbg inp z s st = Ok st' -> from_sigs dbg inp st'.
Proof.
  intros I [A B]. unfold sig_step. destruct (negb _); [discriminate |]. destruct (verify_rrsig _ _ _ _ _) as [[]| [] | |]; try discriminate; [| intros H; inversion H; subst; split; auto].
  cbv zeta. destruct (_ || _); [discriminate |]. destruct (rs_ty s =? T_DS).
  - intros H. inversion H; subst. unfold push_ds. destruct (existsb _ _); split; auto.
  - destruct (wildcard_need dbg s) as [nd| | |] eqn:W; cbn [obind]; try discriminate. intros H. inversion H; subst. split; cbn [v_needs v_res note_sig].
    + intros x X. apply in_app_or in X as [X | X]; [apply A, X |]. exists s. split; [exact I |]. rewrite W. f_equal. eapply wildcard_one; eauto.
    + intros r R. apply in_add_records in R as [R | R]; [| apply B, R]. exists s. split; [exact I |]. unfold covered in R. apply filter_In in R as [_ R]. apply andb_true_iff in R as [_ R]. apply N.eqb_eq in R. congruence.
Qed.
Lemma from_sigs_loop e dbg inp z sigs : incl sigs (rrsigs inp) -> forall st st', from_sigs dbg inp st -> sigs_loop e dbg inp z sigs st = Ok st' -> from_sigs dbg inp st'.
Proof.
  induction sigs as [| s l IH]; intros I st st' F; cbn [sigs_loop]; [intros H; inversion H; subst; auto |].
  destruct (sig_step _ _ _ _ _ _) as [st1| | |] eqn:E; cbn [obind]; try discriminate. apply IH; [intros x X; apply I; right; auto |]. eapply from_sig_step; eauto. apply I. left. reflexivity.
Qed.
Lemma from_zone_step e dbg inp st st' : from_sigs dbg inp st -> zone_step e dbg inp st = Ok st' -> from_sigs dbg inp st'.
Proof.
  intros F. unfold zone_step. assert (G : from_sigs dbg inp (fst (pop_zone st))) by (unfold pop_zone; destruct (v_pending st) as [| []]; exact F).
  destruct (pop_zone st) as [st1 nd]. cbn [fst] in G. destruct (if bytes_eqb _ _ then _ else _); [| discriminate].
  destruct (verify_dnskeys _ _ _ _ _) as [s| | |]; cbn [obind]; try discriminate. apply from_sigs_loop; [| exact G]. unfold zone_rrsigs. intros x X. apply filter_In in X. tauto.
Qed.
Lemma from_zone_loop e dbg inp fuel : forall st st', from_sigs dbg inp st -> zone_loop e dbg inp fuel st = Ok st' -> from_sigs dbg inp st'.
Proof.
  induction fuel as [| f IH]; intros st st' F; cbn [zone_loop]; (destruct (_ || _); [| intros H; inversion H; subst; auto]); [discriminate |].
  destruct (zone_step _ _ _ _) as [st1| | |] eqn:E; cbn [obind]; try discriminate. apply IH. eapply from_zone_step; eauto.
Qed.

Lemma wildcard_expanded dbg s nd : held_sig s -> wildcard_need dbg s = Ok [nd] -> Expanded s /\ snd (fst nd) = rs_key_name s.
Proof.
  intros H. unfold wildcard_need. destruct (negb (rs_labels s =? labels (rs_name s))) eqn:E; [| discriminate]. destruct (negb (rs_ty s =? T_NSEC)) eqn:T; [| discriminate]. cbn [andb].
  destruct (rs_ty s =? T_NSEC3); [discriminate |]. destruct (dbg && _); [discriminate |]. destruct (trailing_n_labels _ _); [| discriminate]. intros X. inversion X; subst. split; [| reflexivity].
  split; [apply negb_true_iff, N.eqb_neq in T; exact T |]. intros (ls & L1 & L2). apply negb_true_iff, N.eqb_neq in E. apply E.
  destruct (valid_labels (rs_name s)) as (ls' & V1 & V2); [apply H |]. rewrite (labelsof_inj _ _ _ L1 V1) in *. rewrite (labels_of _ _ V1 V2). auto.
Qed.

Lemma sigs_of_rrsigs inp : sigs_of inp = rrsigs inp.
Proof. reflexivity. Qed.
Lemma keys_of_dnskeys inp : keys_of inp = flat_map as_dnskey inp.
Proof. reflexivity. Qed.

Lemma verdict_order e dbg fuel inp inp' : Forall Held inp -> SortsNeeds e -> Permutation inp inp' -> sigs_of inp = sigs_of inp' -> keys_of inp = keys_of inp' ->
  (forall s s', In (RR_RRSig s) inp -> In (RR_RRSig s') inp -> Expanded s -> rs_ty s' <> 50 /\ (Expanded s' -> rs_key_name s' = rs_key_name s)) ->
  SameVerdict (verify_rr_stream e dbg fuel inp) (verify_rr_stream e dbg fuel inp').
Proof.
  intros HH SN P S K W. unfold verify_rr_stream. rewrite sigs_of_rrsigs, (sigs_of_rrsigs inp') in S. rewrite keys_of_dnskeys, (keys_of_dnskeys inp') in K.
  assert (Z := same_zones e dbg inp inp' P S K fuel vinit vinit). assert (F := from_zone_loop e dbg inp fuel vinit).
  destruct (zone_loop e dbg inp fuel vinit) as [st| x | |], (zone_loop e dbg inp' fuel vinit) as [st'| x' | |]; cbn [obind]; try (exfalso; apply Z; repeat split; auto; constructor); try (apply Z; repeat split; auto; constructor).
  specialize (F st). assert (R : SameState st st') by (apply Z; repeat split; auto; constructor). clear Z.
  assert (FS : from_sigs dbg inp st) by (apply F; [split; intros ? [] | reflexivity]). clear F. destruct R as (_ & B & C & D & E & G & _ & _).
  unfold finish_verify. rewrite <- (perm_nil _ _ G), <- B, <- C, <- D, <- E. destruct (is_nil (v_res st)); [reflexivity |]. destruct (v_expiry st <=? v_inception st); [reflexivity |]. cbv zeta.
  assert (PL : proof_loop e (v_res st) (length (e_sort_needs e (v_needs st))) (rev (e_sort_needs e (v_needs st))) = proof_loop e (v_res st') (length (e_sort_needs e (v_needs st))) (rev (e_sort_needs e (v_needs st)))).
  - destruct (e_sort_needs e (v_needs st)) as [| n0 l0] eqn:ES; [reflexivity |]. rewrite <- ES.
    assert (IN : forall nd, In nd (e_sort_needs e (v_needs st)) -> exists s, In (RR_RRSig s) inp /\ Expanded s /\ snd (fst nd) = rs_key_name s).
    { intros nd I. apply (Permutation_in _ (Permutation_sym (SN (v_needs st)))) in I. destruct (proj1 FS nd I) as (s & S1 & S2). apply in_rrsigs in S1. exists s. split; [exact S1 |]. eapply wildcard_expanded; [| exact S2]. eapply held_rrsig; eauto. }
    destruct (IN n0) as (s0 & A1 & A2 & A3); [rewrite ES; left; reflexivity |].
    apply proof_loop_perm with (z := rs_key_name s0).
    + exact G.
    + intros n I. destruct (proj2 FS _ I) as (s & S1 & S2). apply in_rrsigs in S1. apply (proj1 (W s0 s A1 S1 A2)). exact S2.
    + apply Forall_forall. intros nd I. apply in_rev in I. destruct (IN nd I) as (s & B1 & B2 & B3). rewrite B3. apply (proj2 (W s0 s A1 B1 A2)). exact B2.
    + rewrite rev_length. lia.
  - rewrite <- PL. destruct (proof_loop _ _ _ _); cbn [obind SameVerdict]; auto. unfold SameResult. cbn [vr_rrs vr_valid_from vr_expires vr_max_cache_ttl]. repeat split; auto. apply perm_filter, G.
Qed.
