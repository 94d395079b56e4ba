(** The zone loop succeeds exactly when every zone it can reach is in order (for C60). *)
From Verif Require Import Base BaseP NameM WireM RRM Base32M ValM NameSpec NameP RecSpec CodecSpec CodecP ValSpec ValP ValP2 ValP3 ValP4 DupP.
From Coq Require Import Permutation Arith.
Local Open Scope N_scope.

Lemma ok_inj {E A} (a b : A) : @Ok E A a = Ok b -> b = a.
Proof. congruence. Qed.

Section M.
  Variables (e : env) (inp : list RR).

  Definition ok (z : list N) (s : rrsig) : Prop := verify_rrsig e false s (zone_dnskeys inp z) (covered inp s) = Ok tt.
  Definition unsup (z : list N) (s : rrsig) : Prop := verify_rrsig e false s (zone_dnskeys inp z) (covered inp s) = Err UnsupportedAlgorithm.
  Definition dss_of (z : list N) : list ds := if bytes_eqb z root_name then root_hints else flat_map as_ds (rrset inp z 43).
  Definition keysig (z : list N) (s : rrsig) : Prop := verify_dnskeys e false (dnskey_rrsigs inp z) (dss_of z) (zone_dnskeys inp z) = Ok s.
  Definition fine (z : list N) (s : rrsig) : Prop :=
    ends_with (rs_name s) z = true /\
    (unsup z s \/ (ok z s /\ rs_ty s <> 46 /\ (rs_ty s = 43 \/ exists nd, wildcard_need false s = Ok nd))).

  Inductive mreach : list N -> Prop :=
  | mr_root : mreach root_name
  | mr_child z s : mreach z -> In s (zone_rrsigs inp z) -> ok z s -> rs_ty s = 43 -> mreach (rs_name s).

  Lemma not48 z s : In s (zone_rrsigs inp z) -> (rs_ty s =? T_DNSKEY) = false.
  Proof. intros H. apply in_zone_rrsigs in H as (_ & _ & H). apply N.eqb_neq. exact H. Qed.

  (** What one step does to a state. *)
  Definition effect (z : list N) (s : rrsig) (st st' : vstate) : Prop :=
    v_zone st' = v_zone st /\
    (forall r, In r (v_res st') <-> In r (v_res st) \/ (ok z s /\ rs_ty s <> 43 /\ In r (covered inp s))) /\
    (forall nd, In nd (v_needs st') <-> In nd (v_needs st) \/ (ok z s /\ rs_ty s <> 43 /\ wildcard_need false s = Ok [nd])) /\
    (forall b, v_inception st' < b <-> v_inception st < b /\ (ok z s -> resolve_time (rs_inception s) < b)) /\
    (forall b, b < v_expiry st' <-> b < v_expiry st /\ (ok z s -> b < resolve_time (rs_expiration s))) /\
    (forall b, b < v_ttl st' <-> b < v_ttl st /\ (ok z s -> b < rs_orig_ttl s)) /\
    (exists new, v_pending st' = new ++ v_pending st /\
      (forall p, In p new -> ok z s /\ rs_ty s = 43 /\ p = (rs_name s, flat_map as_ds (covered inp s)))) /\
    (ok z s -> rs_ty s = 43 -> In (rs_name s) (map fst (v_pending st'))).

  Lemma step_fine z s st : In s (zone_rrsigs inp z) -> ((exists st', sig_step e false inp z s st = Ok st') <-> fine z s).
  Proof.
    intros Hs. pose proof (not48 _ _ Hs) as N48. unfold sig_step, fine, ok, unsup.
    destruct (ends_with (rs_name s) z); cbn [negb]; [| split; [intros (? & H); discriminate | intros [H _]; discriminate]].
    destruct (verify_rrsig e false s (zone_dnskeys inp z) (covered inp s)) as [[] | [] | |] eqn:V; cbv zeta.
    - rewrite N48, orb_false_r. destruct (rs_ty s =? T_RRSIG) eqn:E46.
      + apply N.eqb_eq in E46. split; [intros (? & H); discriminate |]. intros (_ & [H | (_ & H & _)]); [discriminate | contradiction].
      + apply N.eqb_neq in E46. destruct (rs_ty s =? T_DS) eqn:E43.
        * apply N.eqb_eq in E43. split; [| eauto]. intros _. split; [reflexivity |]. right. split; [reflexivity |]. split; [exact E46 |]. left. exact E43.
        * apply N.eqb_neq in E43. split.
          -- intros (st' & H). apply obind_ok in H as (nd & H & _). split; [reflexivity |]. right. split; [reflexivity |]. split; [exact E46 |]. right. eauto.
          -- intros (_ & [H | (_ & _ & [H | (nd & H)])]); [discriminate | contradiction |]. rewrite H. cbn [obind]. eauto.
    - split; [| eauto]. intros _. auto.
    - split; [intros (? & H); discriminate |]. intros (_ & [H | (H & _)]); discriminate.
    - split; [intros (? & H); discriminate |]. intros (_ & [H | (H & _)]); discriminate.
    - split; [intros (? & H); discriminate |]. intros (_ & [H | (H & _)]); discriminate.
  Qed.

  Lemma min_lt a b c : c < N.min a b <-> c < a /\ c < b.
  Proof. lia. Qed.
  Lemma max_lt a b c : N.max a b < c <-> a < c /\ b < c.
  Proof. lia. Qed.

  Lemma step_effect z s st st' : In s (zone_rrsigs inp z) -> sig_step e false inp z s st = Ok st' -> effect z s st st'.
  Proof.
    intros Hs H. unfold effect. pose proof (not48 _ _ Hs) as N48. revert H. unfold sig_step.
    destruct (negb (ends_with (rs_name s) z)); [discriminate |].
    destruct (verify_rrsig e false s (zone_dnskeys inp z) (covered inp s)) as [[] | [] | |] eqn:V; try discriminate; cbv zeta.
    - assert (OK : ok z s) by exact V. rewrite N48, orb_false_r. destruct (rs_ty s =? T_RRSIG); [discriminate |].
      destruct (rs_ty s =? T_DS) eqn:E43.
      + apply N.eqb_eq in E43. change T_DS with 43 in E43. intros H. apply ok_inj in H. subst st'. unfold push_ds.
        destruct (existsb (fun p => bytes_eqb (fst p) (rs_name s)) (v_pending (note_sig s st))) eqn:Ex; cbn [note_sig v_zone v_res v_needs v_pending v_inception v_expiry v_ttl].
        * split; [reflexivity |]. split; [intros r; tauto |]. split; [intros nd; tauto |].
          split; [intros b; rewrite max_lt; tauto |]. split; [intros b; rewrite min_lt; tauto |]. split; [intros b; rewrite min_lt; tauto |].
          split; [exists []; split; [reflexivity | intros p []] |]. intros _ _. apply existsb_exists in Ex as (p & P1 & P2).
          apply bytes_eqb_eq in P2. rewrite <- P2. apply in_map. exact P1.
        * split; [reflexivity |]. split; [intros r; tauto |]. split; [intros nd; tauto |].
          split; [intros b; rewrite max_lt; tauto |]. split; [intros b; rewrite min_lt; tauto |]. split; [intros b; rewrite min_lt; tauto |].
          split; [exists [(rs_name s, flat_map as_ds (covered inp s))]; split; [reflexivity | intros p [<- | []]; auto] |]. intros _ _. left. reflexivity.
      + apply N.eqb_neq in E43. change T_DS with 43 in E43. intros H. apply obind_ok in H as (nd & W & H). apply ok_inj in H. subst st'.
        cbn [note_sig v_zone v_res v_needs v_pending v_inception v_expiry v_ttl]. split; [reflexivity |].
        split; [intros r; rewrite in_add_records; tauto |]. split.
        { intros n. rewrite in_app_iff. split; (intros [G | G]; [left; exact G | right]).
          - split; [exact OK |]. split; [exact E43 |]. rewrite <- (wildcard_need_shape false s nd n W G). exact W.
          - destruct G as (_ & _ & G). assert (nd = [n]) by congruence. subst nd. left. reflexivity. }
        split; [intros b; rewrite max_lt; tauto |]. split; [intros b; rewrite min_lt; tauto |]. split; [intros b; rewrite min_lt; tauto |].
        split; [exists []; split; [reflexivity | intros p []] |]. intros _ G. contradiction.
    - assert (NOK : ~ ok z s) by (unfold ok; congruence). intros H. apply ok_inj in H. subst st'.
      split; [reflexivity |]. split; [tauto |]. split; [tauto |]. split; [tauto |]. split; [tauto |]. split; [tauto |].
      split; [exists []; split; [reflexivity | intros p []] | tauto].
  Qed.

  Definition effects (z : list N) (sigs : list rrsig) (st st' : vstate) : Prop :=
    v_zone st' = v_zone st /\
    (forall r, In r (v_res st') <-> In r (v_res st) \/ exists s, In s sigs /\ ok z s /\ rs_ty s <> 43 /\ In r (covered inp s)) /\
    (forall nd, In nd (v_needs st') <-> In nd (v_needs st) \/ exists s, In s sigs /\ ok z s /\ rs_ty s <> 43 /\ wildcard_need false s = Ok [nd]) /\
    (forall b, v_inception st' < b <-> v_inception st < b /\ forall s, In s sigs -> ok z s -> resolve_time (rs_inception s) < b) /\
    (forall b, b < v_expiry st' <-> b < v_expiry st /\ forall s, In s sigs -> ok z s -> b < resolve_time (rs_expiration s)) /\
    (forall b, b < v_ttl st' <-> b < v_ttl st /\ forall s, In s sigs -> ok z s -> b < rs_orig_ttl s) /\
    (exists new, v_pending st' = new ++ v_pending st /\
      forall p, In p new -> exists s, In s sigs /\ ok z s /\ rs_ty s = 43 /\ p = (rs_name s, flat_map as_ds (covered inp s))) /\
    (forall s, In s sigs -> ok z s -> rs_ty s = 43 -> In (rs_name s) (map fst (v_pending st'))).

  Lemma sigs_fine z sigs : (forall s, In s sigs -> In s (zone_rrsigs inp z)) -> forall st,
    (exists st', sigs_loop e false inp z sigs st = Ok st') <-> (forall s, In s sigs -> fine z s).
  Proof.
    induction sigs as [| s sigs IH]; intros Hin st; cbn [sigs_loop].
    - split; [intros _ s [] | eauto].
    - assert (S1 := step_fine z s st (Hin s (or_introl eq_refl))). assert (IH' := IH (fun x Hx => Hin x (or_intror Hx))). split.
      + intros (st' & H). apply obind_ok in H as (st1 & H1 & H2). intros x [<- | Hx]; [apply S1; eauto |]. apply (proj1 (IH' st1)); eauto.
      + intros H. destruct (proj2 S1 (H s (or_introl eq_refl))) as (st1 & E1). rewrite E1. cbn [obind]. apply IH'. intros x Hx. apply H. right. exact Hx.
  Qed.

  Lemma sigs_effects z sigs : (forall s, In s sigs -> In s (zone_rrsigs inp z)) -> forall st st',
    sigs_loop e false inp z sigs st = Ok st' -> effects z sigs st st'.
  Proof.
    induction sigs as [| s sigs IH]; intros Hin st st' H; cbn [sigs_loop] in H; unfold effects.
    - apply ok_inj in H. subst. split; [reflexivity |].
      split; [intros r; split; [auto | intros [G | (s & [] & _)]; exact G] |]. split; [intros r; split; [auto | intros [G | (s & [] & _)]; exact G] |].
      split; [intros b; split; [intros G; split; [exact G | intros s []] | tauto] |]. split; [intros b; split; [intros G; split; [exact G | intros s []] | tauto] |].
      split; [intros b; split; [intros G; split; [exact G | intros s []] | tauto] |]. split; [exists []; split; [reflexivity | intros p []] | intros s []].
    - apply obind_ok in H as (st1 & H1 & H2). apply step_effect in H1; [| apply Hin; left; reflexivity].
      apply IH in H2; [| intros x Hx; apply Hin; right; exact Hx].
      destruct H1 as (Z1 & R1 & N1 & I1 & X1 & T1 & (n1 & P1 & Q1) & D1). destruct H2 as (Z2 & R2 & N2 & I2 & X2 & T2 & (n2 & P2 & Q2) & D2).
      split; [congruence |]. split; [| split; [| split; [| split; [| split; [| split]]]]].
      + intros r. rewrite R2, R1. split.
        * intros [[G | G] | (x & X & G)]; [left; exact G | right; exists s; split; [left; reflexivity | exact G] | right; exists x; split; [right; exact X | exact G]].
        * intros [G | (x & [<- | X] & G)]; [left; left; exact G | left; right; exact G | right; exists x; split; [exact X | exact G]].
      + intros r. rewrite N2, N1. split.
        * intros [[G | G] | (x & X & G)]; [left; exact G | right; exists s; split; [left; reflexivity | exact G] | right; exists x; split; [right; exact X | exact G]].
        * intros [G | (x & [<- | X] & G)]; [left; left; exact G | left; right; exact G | right; exists x; split; [exact X | exact G]].
      + intros b. rewrite I2, I1. split; [intros [[A B] C]; split; [exact A | intros x [<- | X]; auto] | intros [A B]; split; [split; [exact A |] |]; intros; apply B; auto using in_eq, in_cons].
      + intros b. rewrite X2, X1. split; [intros [[A B] C]; split; [exact A | intros x [<- | X]; auto] | intros [A B]; split; [split; [exact A |] |]; intros; apply B; auto using in_eq, in_cons].
      + intros b. rewrite T2, T1. split; [intros [[A B] C]; split; [exact A | intros x [<- | X]; auto] | intros [A B]; split; [split; [exact A |] |]; intros; apply B; auto using in_eq, in_cons].
      + exists (n2 ++ n1). rewrite P2, P1, app_assoc. split; [reflexivity |]. intros p Hp. apply in_app_or in Hp as [Hp | Hp].
        * apply Q2 in Hp as (x & X & G). exists x. split; [right; exact X | exact G].
        * apply Q1 in Hp. exists s. split; [left; reflexivity | exact Hp].
      + intros x [<- | X] O T; [| apply D2; assumption]. rewrite P2, map_app. apply in_or_app. right. apply D1; assumption.
  Qed.

  (** The pending zones of a state are reachable and carry their own delegations. *)
  Definition pend_ok (st : vstate) : Prop := forall z d, In (z, d) (v_pending st) -> mreach z /\ d = flat_map as_ds (rrset inp z 43).

  Definition zdone (z : list N) : Prop := (exists s, keysig z s) /\ forall s, In s (zone_rrsigs inp z) -> fine z s.

  Lemma pop_cases st : (v_pending st = [] /\ pop_zone st = (st, None)) \/
    exists z d rest, v_pending st = (z, d) :: rest /\ pop_zone st =
      ({| v_zone := z; v_res := v_res st; v_needs := v_needs st; v_pending := rest;
          v_inception := v_inception st; v_expiry := v_expiry st; v_ttl := v_ttl st |}, Some d).
  Proof. unfold pop_zone. destruct (v_pending st) as [| [z d] rest]; [left; auto | right; exists z, d, rest; auto]. Qed.

  (** One zone, seen from outside. *)
  Definition zeffect (z : list N) (st st' : vstate) : Prop :=
    v_zone st' = z /\
    (forall r, In r (v_res st') <-> In r (v_res st) \/ exists s, In s (zone_rrsigs inp z) /\ ok z s /\ rs_ty s <> 43 /\ In r (covered inp s)) /\
    (forall nd, In nd (v_needs st') <-> In nd (v_needs st) \/ exists s, In s (zone_rrsigs inp z) /\ ok z s /\ rs_ty s <> 43 /\ wildcard_need false s = Ok [nd]) /\
    (forall b, v_inception st' < b <-> v_inception st < b /\ forall s, keysig z s \/ (In s (zone_rrsigs inp z) /\ ok z s) -> resolve_time (rs_inception s) < b) /\
    (forall b, b < v_expiry st' <-> b < v_expiry st /\ forall s, keysig z s \/ (In s (zone_rrsigs inp z) /\ ok z s) -> b < resolve_time (rs_expiration s)) /\
    (forall b, b < v_ttl st' <-> b < v_ttl st /\ forall s, keysig z s \/ (In s (zone_rrsigs inp z) /\ ok z s) -> b < rs_orig_ttl s) /\
    (exists new, v_pending st' = new ++ tl (v_pending st) /\
      forall p, In p new -> exists s, In s (zone_rrsigs inp z) /\ ok z s /\ rs_ty s = 43 /\ p = (rs_name s, flat_map as_ds (covered inp s))) /\
    (forall s, In s (zone_rrsigs inp z) -> ok z s -> rs_ty s = 43 -> In (rs_name s) (map fst (v_pending st'))).

  Definition next_zone (st : vstate) : list N := v_zone (fst (pop_zone st)).

  Lemma zone_step_eq st : pend_ok st -> v_zone st = root_name \/ v_pending st <> [] ->
    zone_step e false inp st = obind (verify_dnskeys e false (dnskey_rrsigs inp (next_zone st)) (dss_of (next_zone st)) (zone_dnskeys inp (next_zone st)))
      (fun s => sigs_loop e false inp (next_zone st) (zone_rrsigs inp (next_zone st)) (note_sig s (fst (pop_zone st)))).
  Proof.
    intros HP HZ. unfold zone_step, next_zone. destruct (pop_cases st) as [[E1 E2] | (z & d & rest & E1 & E2)]; rewrite E2; cbn [fst v_zone].
    - destruct HZ as [HZ | HZ]; [| congruence]. rewrite HZ. unfold dss_of. change (bytes_eqb root_name root_name) with true. cbv iota. reflexivity.
    - assert (G := HP z d). rewrite E1 in G. destruct (G (or_introl eq_refl)) as [_ ->]. unfold dss_of. destruct (bytes_eqb z root_name); reflexivity.
  Qed.

  Lemma zone_step_fine st : pend_ok st -> v_zone st = root_name \/ v_pending st <> [] ->
    ((exists st', zone_step e false inp st = Ok st') <-> zdone (next_zone st)).
  Proof.
    intros HP HZ. rewrite (zone_step_eq st HP HZ). unfold zdone, keysig. split.
    - intros (st' & H). apply obind_ok in H as (s & H1 & H2). split; [eauto |]. eapply sigs_fine; eauto.
    - intros [(s & H1) H2]. rewrite H1. cbn [obind]. apply sigs_fine; auto.
  Qed.

  Lemma zone_step_effect st st' : pend_ok st -> v_zone st = root_name \/ v_pending st <> [] -> zone_step e false inp st = Ok st' ->
    zdone (next_zone st) /\ zeffect (next_zone st) st st'.
  Proof.
    intros HP HZ H. split; [apply zone_step_fine; eauto |]. rewrite (zone_step_eq st HP HZ) in H. apply obind_ok in H as (k & K & H).
    assert (KS : keysig (next_zone st) k) by exact K. assert (KU : forall s, keysig (next_zone st) s -> s = k) by (intros s Hs; unfold keysig in *; congruence).
    apply sigs_effects in H; [| auto]. destruct H as (Z2 & R2 & N2 & I2 & X2 & T2 & (n2 & P2 & Q2) & D2).
    assert (F : forall A (f : vstate -> A), (forall s x, f (note_sig s x) = f x) -> (f (fst (pop_zone st)) = f st) -> f (note_sig k (fst (pop_zone st))) = f st) by (intros A f G1 G2; rewrite G1; exact G2).
    assert (ER : v_res (fst (pop_zone st)) = v_res st) by (destruct (pop_cases st) as [[_ ->] | (? & ? & ? & _ & ->)]; reflexivity).
    assert (EN : v_needs (fst (pop_zone st)) = v_needs st) by (destruct (pop_cases st) as [[_ ->] | (? & ? & ? & _ & ->)]; reflexivity).
    assert (EI : v_inception (fst (pop_zone st)) = v_inception st) by (destruct (pop_cases st) as [[_ ->] | (? & ? & ? & _ & ->)]; reflexivity).
    assert (EX : v_expiry (fst (pop_zone st)) = v_expiry st) by (destruct (pop_cases st) as [[_ ->] | (? & ? & ? & _ & ->)]; reflexivity).
    assert (ET : v_ttl (fst (pop_zone st)) = v_ttl st) by (destruct (pop_cases st) as [[_ ->] | (? & ? & ? & _ & ->)]; reflexivity).
    assert (EP : v_pending (fst (pop_zone st)) = tl (v_pending st)) by (destruct (pop_cases st) as [[E ->] | (? & ? & ? & E & ->)]; rewrite ?E; cbn [fst v_pending tl]; congruence).
    cbn [note_sig v_zone v_res v_needs v_pending v_inception v_expiry v_ttl] in *. rewrite ER, EN, EI, EX, ET, EP in *.
    split; [exact Z2 |]. split; [exact R2 |]. split; [exact N2 |].
    split; [| split; [| split; [| split; [exists n2; split; [exact P2 | exact Q2] | exact D2]]]].
    - intros b. rewrite I2, max_lt. split.
      + intros [[A B] C]. split; [exact A |]. intros s [Hs | [H1 H2]]; [rewrite (KU s Hs); exact B | apply C; assumption].
      + intros [A B]. split; [split; [exact A | apply B; left; exact KS] |]. intros s H1 H2. apply B. right. auto.
    - intros b. rewrite X2, min_lt. split.
      + intros [[A B] C]. split; [exact A |]. intros s [Hs | [H1 H2]]; [rewrite (KU s Hs); exact B | apply C; assumption].
      + intros [A B]. split; [split; [exact A | apply B; left; exact KS] |]. intros s H1 H2. apply B. right. auto.
    - intros b. rewrite T2, min_lt. split.
      + intros [[A B] C]. split; [exact A |]. intros s [Hs | [H1 H2]]; [rewrite (KU s Hs); exact B | apply C; assumption].
      + intros [A B]. split; [split; [exact A | apply B; left; exact KS] |]. intros s H1 H2. apply B. right. auto.
  Qed.

  (** ** The whole loop, given that it ends *)
  Record seen (vis : list (list N)) (st : vstate) : Prop := {
    se_vis : forall z, In z vis -> mreach z /\ zdone z;
    se_root : vis = [] -> v_zone st = root_name /\ v_pending st = [];
    se_zone : vis <> [] -> In (v_zone st) vis;
    se_inroot : vis <> [] -> In root_name vis;
    se_pend : pend_ok st;
    se_next : forall z s, In z vis -> In s (zone_rrsigs inp z) -> ok z s -> rs_ty s = 43 -> In (rs_name s) vis \/ In (rs_name s) (map fst (v_pending st));
    se_self : forall z s, In z vis -> In s (zone_rrsigs inp z) -> ok z s -> rs_ty s = 43 -> rs_name s = z -> In z (map fst (v_pending st));
    se_res : forall r, In r (v_res st) <-> exists z s, In z vis /\ In s (zone_rrsigs inp z) /\ ok z s /\ rs_ty s <> 43 /\ In r (covered inp s);
    se_needs : forall nd, In nd (v_needs st) <-> exists z s, In z vis /\ In s (zone_rrsigs inp z) /\ ok z s /\ rs_ty s <> 43 /\ wildcard_need false s = Ok [nd];
    se_inc : forall b, v_inception st < b <-> 0 < b /\ forall z s, In z vis -> keysig z s \/ (In s (zone_rrsigs inp z) /\ ok z s) -> resolve_time (rs_inception s) < b;
    se_exp : forall b, b < v_expiry st <-> b < 2 ^ 64 - 1 /\ forall z s, In z vis -> keysig z s \/ (In s (zone_rrsigs inp z) /\ ok z s) -> b < resolve_time (rs_expiration s);
    se_ttl : forall b, b < v_ttl st <-> b < 2 ^ 32 - 1 /\ forall z s, In z vis -> keysig z s \/ (In s (zone_rrsigs inp z) /\ ok z s) -> b < rs_orig_ttl s }.

  Lemma seen_init : seen [] vinit.
  Proof.
    constructor; cbn [vinit v_zone v_res v_needs v_pending v_inception v_expiry v_ttl]; try (intros; contradiction); try congruence; auto.
    - intros z d [].
    - intros r. split; [intros [] | intros (z & s & [] & _)].
    - intros r. split; [intros [] | intros (z & s & [] & _)].
    - intros b. split; [intros H; split; [exact H | intros z s []] | tauto].
    - intros b. split; [intros H; split; [exact H | intros z s []] | tauto].
    - intros b. split; [intros H; split; [exact H | intros z s []] | tauto].
  Qed.

  Lemma next_reach vis st : seen vis st -> v_zone st = root_name \/ v_pending st <> [] -> mreach (next_zone st).
  Proof.
    intros S HZ. unfold next_zone. destruct (pop_cases st) as [[E ->] | (z & d & rest & E & ->)]; cbn [fst v_zone].
    - destruct HZ as [-> | HZ]; [apply mr_root | congruence].
    - apply (se_pend _ _ S z d). rewrite E. left. reflexivity.
  Qed.

  Lemma seen_step vis st st' : seen vis st -> v_zone st = root_name \/ v_pending st <> [] -> zone_step e false inp st = Ok st' ->
    seen (next_zone st :: vis) st'.
  Proof.
    intros S HZ H. pose proof (next_reach _ _ S HZ) as MR. pose proof (zone_step_effect st st' (se_pend _ _ S) HZ H) as [ZD (Z & R & N & I & X & T & (new & P & Q) & D)].
    set (z0 := next_zone st) in *.
    assert (TL : forall p, In p (tl (v_pending st)) -> In p (v_pending st)) by (destruct (v_pending st) as [| p0 l0]; [intros p [] | intros p Hp; right; exact Hp]).
    constructor.
    - intros z [<- | Hz]; [auto | apply (se_vis _ _ S); exact Hz].
    - discriminate.
    - intros _. left. symmetry. exact Z.
    - intros _. destruct vis as [| v vis]; [| right; apply (se_inroot _ _ S); discriminate]. left.
      destruct (se_root _ _ S eq_refl) as [A B]. unfold z0, next_zone. destruct (pop_cases st) as [[_ ->] | (? & ? & ? & E & _)]; [exact A | congruence].
    - intros z d Hp. rewrite P in Hp. apply in_app_or in Hp as [Hp | Hp].
      + apply Q in Hp as (s & S1 & S2 & S3 & S4). assert (E1 : z = rs_name s) by congruence. assert (E2 : d = flat_map as_ds (covered inp s)) by congruence. subst z d.
        split; [apply (mr_child z0 s); assumption |]. rewrite covered_rrset, S3. reflexivity.
      + apply (se_pend _ _ S z d). auto.
    - intros z s [<- | Hz] S1 S2 S3; [right; apply D; assumption |].
      destruct (se_next _ _ S z s Hz S1 S2 S3) as [G | G]; [left; right; exact G |].
      destruct (pop_cases st) as [[E _] | (z1 & d1 & rest & E & PP)]; [rewrite E in G; destruct G |].
      rewrite E in G. cbn [map fst] in G. destruct G as [G | G].
      + left. left. unfold z0, next_zone. rewrite PP. exact G.
      + right. rewrite P, E, map_app. cbn [tl]. apply in_or_app. right. exact G.
    - intros z s [<- | Hz] S1 S2 S3 S4; [rewrite <- S4 at 1; apply D; assumption |].
      pose proof (se_self _ _ S z s Hz S1 S2 S3 S4) as G.
      destruct (pop_cases st) as [[E _] | (z1 & d1 & rest & E & PP)]; [rewrite E in G; destruct G |].
      rewrite E in G. cbn [map fst] in G. destruct G as [G | G].
      + assert (E0 : z0 = z) by (unfold z0, next_zone; rewrite PP; exact G). rewrite <- S4. apply D; rewrite ?E0; assumption.
      + rewrite P, E, map_app. cbn [tl]. apply in_or_app. right. exact G.
    - intros r. rewrite R, (se_res _ _ S). split.
      + intros [(z & s & Hz & G) | (s & G)]; [exists z, s; split; [right; exact Hz | exact G] | exists z0, s; split; [left; reflexivity | exact G]].
      + intros (z & s & [<- | Hz] & G); [right; exists s; exact G | left; exists z, s; split; [exact Hz | exact G]].
    - intros r. rewrite N, (se_needs _ _ S). split.
      + intros [(z & s & Hz & G) | (s & G)]; [exists z, s; split; [right; exact Hz | exact G] | exists z0, s; split; [left; reflexivity | exact G]].
      + intros (z & s & [<- | Hz] & G); [right; exists s; exact G | left; exists z, s; split; [exact Hz | exact G]].
    - intros b. rewrite I, (se_inc _ _ S). split.
      + intros [[A B] C]. split; [exact A |]. intros z s [<- | Hz] G; [apply C; exact G | apply (B z s Hz G)].
      + intros [A B]. split; [split; [exact A |] |]. { intros z s Hz G. apply (B z s); [right; exact Hz | exact G]. } intros s G. apply (B z0 s); [left; reflexivity | exact G].
    - intros b. rewrite X, (se_exp _ _ S). split.
      + intros [[A B] C]. split; [exact A |]. intros z s [<- | Hz] G; [apply C; exact G | apply (B z s Hz G)].
      + intros [A B]. split; [split; [exact A |] |]. { intros z s Hz G. apply (B z s); [right; exact Hz | exact G]. } intros s G. apply (B z0 s); [left; reflexivity | exact G].
    - intros b. rewrite T, (se_ttl _ _ S). split.
      + intros [[A B] C]. split; [exact A |]. intros z s [<- | Hz] G; [apply C; exact G | apply (B z s Hz G)].
      + intros [A B]. split; [split; [exact A |] |]. { intros z s Hz G. apply (B z s); [right; exact Hz | exact G]. } intros s G. apply (B z0 s); [left; reflexivity | exact G].
  Qed.

  Lemma loop_guard st : bytes_eqb (v_zone st) root_name || negb (is_nil (v_pending st)) = true <-> v_zone st = root_name \/ v_pending st <> [].
  Proof.
    rewrite orb_true_iff, negb_true_iff, is_nil_false, bytes_eqb_eq. tauto.
  Qed.

  Lemma seen_loop fuel : forall vis st st', seen vis st -> zone_loop e false inp fuel st = Ok st' ->
    exists vis', seen vis' st' /\ v_pending st' = [] /\ v_zone st' <> root_name.
  Proof.
    induction fuel as [| f IH]; intros vis st st' S H; cbn [zone_loop] in H; destruct (bytes_eqb (v_zone st) root_name || negb (is_nil (v_pending st))) eqn:G; try discriminate.
    1, 3: apply ok_inj in H; subst st'; exists vis; split; [exact S |]; apply orb_false_iff in G as [G1 G2]; split;
      [apply negb_false_iff in G2; destruct (v_pending st); [reflexivity | discriminate] | apply bytes_eqb_neq; exact G1].
    apply loop_guard in G. apply obind_ok in H as (st1 & H1 & H2). eapply IH; [| exact H2]. eapply seen_step; eauto.
  Qed.

  (** All of it, in the end. *)
  Record complete (st : vstate) : Prop := {
    co_list : exists vis, forall z, mreach z <-> In z vis;
    co_done : forall z, mreach z -> zdone z;
    co_root : exists s, In s (zone_rrsigs inp root_name) /\ ok root_name s /\ rs_ty s = 43;
    co_self : forall z s, mreach z -> In s (zone_rrsigs inp z) -> ok z s -> rs_ty s = 43 -> rs_name s <> z;
    co_res : forall r, In r (v_res st) <-> exists z s, mreach z /\ In s (zone_rrsigs inp z) /\ ok z s /\ rs_ty s <> 43 /\ In r (covered inp s);
    co_needs : forall nd, In nd (v_needs st) <-> exists z s, mreach z /\ In s (zone_rrsigs inp z) /\ ok z s /\ rs_ty s <> 43 /\ wildcard_need false s = Ok [nd];
    co_inc : forall b, v_inception st < b <-> 0 < b /\ forall z s, mreach z -> keysig z s \/ (In s (zone_rrsigs inp z) /\ ok z s) -> resolve_time (rs_inception s) < b;
    co_exp : forall b, b < v_expiry st <-> b < 2 ^ 64 - 1 /\ forall z s, mreach z -> keysig z s \/ (In s (zone_rrsigs inp z) /\ ok z s) -> b < resolve_time (rs_expiration s);
    co_ttl : forall b, b < v_ttl st <-> b < 2 ^ 32 - 1 /\ forall z s, mreach z -> keysig z s \/ (In s (zone_rrsigs inp z) /\ ok z s) -> b < rs_orig_ttl s }.

  Lemma loop_complete fuel st : zone_loop e false inp fuel vinit = Ok st -> complete st.
  Proof.
    intros H. destruct (seen_loop fuel [] vinit st seen_init H) as (vis & S & P & Z).
    assert (NE : vis <> []) by (intros ->; apply Z; apply (se_root _ _ S eq_refl)).
    assert (RV : In root_name vis) by (apply (se_inroot _ _ S NE)).
    assert (MV : forall z, mreach z <-> In z vis).
    { intros z. split; [| intros G; apply (se_vis _ _ S z G)]. induction 1 as [| z s Hz IH H1 H2 H3]; [exact RV |].
      destruct (se_next _ _ S z s IH H1 H2 H3) as [G | G]; [exact G |]. rewrite P in G. destruct G. }
    constructor.
    - exists vis. exact MV.
    - intros z Hz. apply (se_vis _ _ S). apply MV. exact Hz.
    - pose proof (se_zone _ _ S NE) as G. apply MV in G. revert Z. clear - G. induction G as [| z s Hz IH H1 H2 H3]; [congruence |]. intros _.
      destruct (list_eq_dec N.eq_dec z root_name) as [-> | NZ]; [eauto | apply IH; exact NZ].
    - intros z s Hz H1 H2 H3 H4. apply MV in Hz. pose proof (se_self _ _ S z s Hz H1 H2 H3 H4) as G. rewrite P in G. destruct G.
    - intros r. rewrite (se_res _ _ S). split; intros (z & s & Hz & G); exists z, s; (split; [apply MV; exact Hz | exact G]).
    - intros r. rewrite (se_needs _ _ S). split; intros (z & s & Hz & G); exists z, s; (split; [apply MV; exact Hz | exact G]).
    - intros b. rewrite (se_inc _ _ S). split; intros [A B]; split; auto; intros z s Hz G; apply (B z s); auto; apply MV; exact Hz.
    - intros b. rewrite (se_exp _ _ S). split; intros [A B]; split; auto; intros z s Hz G; apply (B z s); auto; apply MV; exact Hz.
    - intros b. rewrite (se_ttl _ _ S). split; intros [A B]; split; auto; intros z s Hz G; apply (B z s); auto; apply MV; exact Hz.
  Qed.

  (** ** The loop ends *)
  Inductive zsteps : vstate -> vstate -> Prop :=
  | zs_refl st : zsteps st st
  | zs_step st st1 st' : v_zone st = root_name \/ v_pending st <> [] -> zone_step e false inp st = Ok st1 -> zsteps st1 st' -> zsteps st st'.
  Lemma zsteps_trans a b c : zsteps a b -> zsteps b c -> zsteps a c.
  Proof. induction 1; intros; eauto using zs_step. Qed.
  Lemma zsteps_loop st st' : zsteps st st' -> exists n, forall f, zone_loop e false inp (n + f) st = zone_loop e false inp f st'.
  Proof.
    induction 1 as [st | st st1 st' G E _ (n & IH)]; [exists 0%nat; reflexivity |]. exists (Datatypes.S n). intros f. cbn [zone_loop Nat.add].
    apply loop_guard in G. rewrite G, E. cbn [obind]. apply IH.
  Qed.

  Definition order_ok : Prop := (forall z, mreach z -> zdone z) /\ (forall z, mreach z -> (length z <= 255)%nat) /\
    (forall z s, mreach z -> In s (zone_rrsigs inp z) -> ok z s -> rs_ty s = 43 -> rs_name s <> z).

  Lemma longer (n z : list N) : ends_with n z = true -> n <> z -> (length z < length n)%nat.
  Proof.
    intros H NE. apply ends_with_spec in H as (p & ->). rewrite app_length. destruct p; [contradiction NE; reflexivity | cbn [length]; lia].
  Qed.

  Lemma drain : order_ok -> forall k new rest vis st, seen vis st -> v_pending st = new ++ rest ->
    (forall p, In p new -> (1 < length (fst p) /\ 256 - length (fst p) < k)%nat) ->
    exists st' vis', zsteps st st' /\ seen vis' st' /\ v_pending st' = rest /\ (v_zone st' <> root_name \/ (new = [] /\ st' = st)).
  Proof.
    intros (O1 & O2 & O3). induction k as [| k IHk]; intros new.
    { intros rest vis st S HP HL. destruct new as [| p new]; [| destruct (HL p (or_introl eq_refl)); lia].
      exists st, vis. split; [apply zs_refl |]. split; [exact S |]. split; [exact HP | right; auto]. }
    induction new as [| [z d] new IHn]; intros rest vis st S HP HL.
    { exists st, vis. split; [apply zs_refl |]. split; [exact S |]. split; [exact HP | right; auto]. }
    assert (GZ : v_zone st = root_name \/ v_pending st <> []) by (right; rewrite HP; discriminate).
    assert (NZ : next_zone st = z) by (unfold next_zone, pop_zone; rewrite HP; reflexivity).
    assert (MZ : mreach z) by (rewrite <- NZ; eapply next_reach; eauto).
    destruct (proj2 (zone_step_fine st (se_pend _ _ S) GZ)) as (st1 & E1); [rewrite NZ; apply O1; exact MZ |].
    pose proof (seen_step _ _ _ S GZ E1) as S1. pose proof (zone_step_effect _ _ (se_pend _ _ S) GZ E1) as [ZD (Z1 & _ & _ & _ & _ & _ & (new1 & P1 & Q1) & _)].
    rewrite NZ in *. rewrite HP in P1. cbn [tl app] in P1. destruct (HL (z, d) (or_introl eq_refl)) as [L1 L2]. cbn [fst] in L1, L2.
    destruct (IHk new1 (new ++ rest) _ st1 S1 P1) as (st2 & vis2 & X2 & S2 & P2 & Y2).
    { intros p Hp. apply Q1 in Hp as (s & H1 & H2 & H3 & ->). cbn [fst]. pose proof (proj2 ZD s H1) as [H4 _].
      pose proof (longer _ _ H4 (O3 z s MZ H1 H2 H3)). pose proof (O2 _ (mr_child z s MZ H1 H2 H3)). lia. }
    destruct (IHn rest vis2 st2 S2 P2) as (st3 & vis3 & X3 & S3 & P3 & Y3); [intros p Hp; apply HL; right; exact Hp |].
    exists st3, vis3. split; [eapply zs_step; [exact GZ | exact E1 |]; eapply zsteps_trans; eauto |]. split; [exact S3 |]. split; [exact P3 |]. left.
    destruct Y3 as [Y3 | [_ ->]]; [exact Y3 |]. destruct Y2 as [Y2 | [_ ->]]; [exact Y2 |]. rewrite Z1. intros ->. cbn in L1. lia.
  Qed.

  Lemma loop_ends : order_ok -> (exists s, In s (zone_rrsigs inp root_name) /\ ok root_name s /\ rs_ty s = 43) ->
    exists fuel st, zone_loop e false inp fuel vinit = Ok st.
  Proof.
    intros O (r & R1 & R2 & R3). assert (GZ : v_zone vinit = root_name \/ v_pending vinit <> []) by (left; reflexivity).
    assert (NZ : next_zone vinit = root_name) by reflexivity. pose proof O as (O1 & O2 & O3).
    destruct (proj2 (zone_step_fine vinit (se_pend _ _ seen_init) GZ)) as (st1 & E1); [rewrite NZ; apply O1; apply mr_root |].
    pose proof (seen_step _ _ _ seen_init GZ E1) as S1. pose proof (zone_step_effect _ _ (se_pend _ _ seen_init) GZ E1) as [ZD (Z1 & _ & _ & _ & _ & _ & (new1 & P1 & Q1) & D1)].
    rewrite NZ in *. cbn [vinit v_pending tl] in P1.
    destruct (drain O 257%nat new1 [] _ st1 S1 P1) as (st2 & vis2 & X2 & S2 & P2 & Y2).
    { intros p Hp. apply Q1 in Hp as (s & H1 & H2 & H3 & ->). cbn [fst]. pose proof (proj2 ZD s H1) as [H4 _].
      pose proof (longer _ _ H4 (O3 _ s mr_root H1 H2 H3)) as H5. change (length root_name) with 1%nat in H5. lia. }
    destruct Y2 as [Y2 | [-> _]].
    - destruct (zsteps_loop vinit st2) as (n & H); [eapply zs_step; eauto |]. exists (n + 0)%nat, st2. rewrite H. cbn [zone_loop].
      rewrite P2. cbn [is_nil negb]. rewrite orb_false_r. destruct (bytes_eqb (v_zone st2) root_name) eqn:E; [apply bytes_eqb_eq in E; contradiction | reflexivity].
    - pose proof (D1 r R1 R2 R3) as G. rewrite P1 in G. destruct G.
  Qed.
End M.
