(** What the verdict UnsupportedAlgorithm tells. *)
From Verif Require Import Base BaseP NameM WireM RRM SerM ValM NameSpec NameP WireSpec WireP RecSpec RecP CodecSpec ValSpec ValP ValP2 ValP3 ValP5 AcceptSpec AcceptP AcceptP2 AcceptP4 AcceptP5 DbgP OrderP OrdRR SignedP SecSpec SecP SecP2 UnsupSpec.
From Coq Require Import Permutation.
Local Open Scope N_scope.

Lemma delegated_vouches e dss k : DelegatedKey e dss k -> exists d, In d dss /\ Vouches e d k.
Proof. intros (d & H1 & H2 & H3 & H4). exists d. split; [exact H1 |]. split; [exact H2 |]. split; [exact H3 |]. tauto. Qed.

Section Loop.
  Variables (e : env) (inp : list RR).
  Hypothesis Hheld : Forall Held inp.

  Definition cuts (st : vstate) : Prop := forall z d, In (z, d) (v_pending st) -> Cut e inp z.

  Lemma next_cut vis st : seen e inp vis st -> cuts st -> v_zone st = root_name \/ v_pending st <> [] -> Cut e inp (next_zone st).
  Proof.
    intros S C HZ. unfold next_zone. destruct (pop_cases st) as [[E ->] | (z & d & rest & E & ->)]; cbn [fst v_zone].
    - destruct HZ as [-> | HZ]; [apply Cut_root | congruence].
    - apply (C z d). rewrite E. left. reflexivity.
  Qed.
  Lemma cuts_step vis st st' : seen e inp vis st -> cuts st -> v_zone st = root_name \/ v_pending st <> [] -> zone_step e false inp st = Ok st' -> cuts st'.
  Proof.
    intros S C HZ H. pose proof (next_cut vis st S C HZ) as NC.
    destruct (zone_step_effect e inp st st' (se_pend _ _ _ _ S) HZ H) as [((k & K) & F) (_ & _ & _ & _ & _ & _ & (new & P & Q) & _)].
    intros z d Hp. rewrite P in Hp. apply in_app_or in Hp as [Hp | Hp].
    - apply Q in Hp as (s & S1 & S2 & S3 & S4). assert (E : z = rs_name s) by congruence. subst z.
      destruct (F s S1) as [F1 _]. apply ends_with_spec in F1 as (p & F1).
      apply (Cut_child e inp (next_zone st) s p); auto; [exists k; apply keysig_spec; assumption | apply good_ok; auto].
    - apply (C z d). destruct (v_pending st); [destruct Hp | right; exact Hp].
  Qed.

  Lemma step_unsup st : pend_ok e inp st -> v_zone st = root_name \/ v_pending st <> [] -> zone_step e false inp st = Err UnsupportedAlgorithm ->
    Wished e (delegations inp (next_zone st)) (fun k => In (RR_DnsKey k) (rrset inp (next_zone st) 48)).
  Proof.
    intros HP HZ H. rewrite (zone_step_eq e inp st HP HZ) in H. rewrite (dss_of_eq inp) in H. set (z := next_zone st) in *.
    destruct (verify_dnskeys e false (dnskey_rrsigs inp z) (delegations inp z) (zone_dnskeys inp z)) as [s|er| |] eqn:V; cbn [obind] in H; try discriminate.
    - exfalso. eapply sigs_not_unsupported; eauto.
    - assert (er = UnsupportedAlgorithm) by congruence. subst er. apply dnskeys_unsupported in V as (V1 & V2); [| apply held_flags; exact Hheld].
      split; [exact V1 |]. destruct V2 as [V2 | [V2 V3]]; [left; exact V2 | right].
      destruct (dnskey_rrsigs inp z) as [| s l]; [congruence |]. inversion V3 as [| ? ? (A & k & K1 & K2 & K3) _]; subst.
      apply delegated_vouches in K3 as (d & D1 & D2). exists d, k. split; [exact D1 |].
      split; [replace (ds_alg d) with (rs_alg s); [exact A | destruct D2 as (-> & _); symmetry; apply K2] |].
      split; [| exact D2]. rewrite <- (keys_at_eq inp) in K1. apply (in_keys inp). exact K1.
  Qed.

  Lemma loop_unsup fuel : forall vis st, seen e inp vis st -> cuts st -> zone_loop e false inp fuel st = Err UnsupportedAlgorithm ->
    exists z, Cut e inp z /\ Wished e (delegations inp z) (fun k => In (RR_DnsKey k) (rrset inp z 48)).
  Proof.
    induction fuel as [| f IH]; intros vis st S C H; cbn [zone_loop] in H; destruct (bytes_eqb (v_zone st) root_name || negb (is_nil (v_pending st))) eqn:G; try discriminate.
    apply loop_guard in G. destruct (zone_step e false inp st) as [st1|er| |] eqn:Z; cbn [obind] in H; try discriminate.
    - eapply IH; [eapply seen_step; eauto | eapply cuts_step; eauto | exact H].
    - assert (er = UnsupportedAlgorithm) by congruence. subst er. exists (next_zone st). split; [eapply next_cut; eauto | apply step_unsup; auto; apply (se_pend _ _ _ _ S)].
  Qed.

  Lemma root_known keys : ~ Wished e root_anchors keys.
  Proof.
    intros (_ & [H | (d & k & H1 & H2 & _)]).
    - inversion H as [| ? ? A _]; subst. apply A. right. left. reflexivity.
    - apply H2. destruct H1 as [<- | [<- | []]]; left; reflexivity.
  Qed.

  Lemma unsup_wished dbg fuel : verify_rr_stream e dbg fuel inp = Err UnsupportedAlgorithm ->
    exists z, Cut e inp z /\ z <> [46] /\ Wished e (flat_map ds_of (rrset inp z 43)) (fun k => In (RR_DnsKey k) (rrset inp z 48)).
  Proof.
    intros H. assert (H0 : verify_rr_stream e false fuel inp = Err UnsupportedAlgorithm).
    { destruct dbg; [| exact H]. rewrite verify_same; [exact H | congruence]. }
    clear H. unfold verify_rr_stream in H0. destruct (zone_loop e false inp fuel vinit) as [st|er| |] eqn:Z; cbn [obind] in H0; try discriminate.
    - exfalso. revert H0. unfold finish_verify. destruct (is_nil _); [discriminate|]. destruct (_ <=? _); [discriminate|].
      cbv zeta. assert (P : forall f l, proof_loop e (v_res st) f l <> Err UnsupportedAlgorithm).
      { induction f as [|f IHf]; intros [|x l]; cbn [proof_loop]; try discriminate. destruct (discharge _ _ _ _); [apply IHf|discriminate]. }
      destruct (proof_loop e (v_res st) _ _) as [|er| |] eqn:PE; cbn [obind]; try discriminate.
      intros G. eapply P. rewrite PE. congruence.
    - assert (er = UnsupportedAlgorithm) by congruence. subst er. apply (loop_unsup fuel [] vinit) in Z; [| apply seen_init | intros z d []].
      destruct Z as (z & C & Wi). exists z. split; [exact C |]. unfold delegations in Wi. destruct (list_eq_dec N.eq_dec z [46]) as [-> | NZ]; [destruct (root_known _ Wi) | auto].
  Qed.
End Loop.

Section Sec.
  Variables (e : env) (KeyOf : list N -> dnskey -> Prop) (Honest : list N -> Prop) (Signed : list N -> rrsig -> list RR -> Prop).
  Hypothesis W : World e KeyOf Honest Signed.
  Variable inp : list RR.
  Hypothesis Hheld : Forall Held inp.
  Hypothesis Hfits : Forall fits_rr inp.

  (** The zones above [z] are honest. *)
  Definition above (z : list N) : Prop := forall d p, z = p ++ d -> p <> [] -> proper_name d -> Honest d.
  Lemma cut_published z : Cut e inp z -> above z -> delegations inp z <> [] ->
    (z = [46] \/ (proper_name z /\ exists zp s rs p, z = p ++ zp /\ Signed zp s rs /\ rs_ty s = 43 /\ rs_name s = z /\ Permutation (rrset inp z 43) rs)) /\
    (Honest z -> forall k, In k (keys_at inp z) -> DelegatedKey e (delegations inp z) k -> KeyOf z k).
  Proof.
    intros C. induction C as [| z s p C IH (ks & KS) G T EP]; intros HU NE.
    - split; [left; reflexivity |]. intros _ k Hk D. destruct (key_held inp Hheld _ _ Hk) as [A B]. apply (wo_root _ _ _ _ W); auto.
    - destruct (list_eq_dec N.eq_dec (rs_name s) [46]) as [E | NR].
      { rewrite E in *. split; [left; reflexivity |]. intros _ k Hk D. destruct (key_held inp Hheld _ _ Hk) as [A B]. apply (wo_root _ _ _ _ W); auto. }
      destruct p as [| c p]; [rewrite EP in *; cbn [app] in *; apply IH; assumption |].
      assert (DZ : delegations inp z <> []).
      { intros Z. destruct KS as (pre & post & _ & _ & _ & k & msg & (pr & po & _ & _ & (d & Hd & _) & _) & _). rewrite Z in Hd. destruct Hd. }
      destruct IH as [IP IK]; [intros d q E Q P; apply (HU d ((c :: p) ++ q)); [rewrite EP, E; apply app_assoc | discriminate | exact P] | exact DZ |].
      assert (PZ : proper_name z) by (destruct IP as [-> | [IP _]]; [exact root_proper | exact IP]).
      assert (HZ : Honest z) by (apply (HU z (c :: p)); [exact EP | discriminate | exact PZ]).
      assert (HK : forall k, In k (keys_at inp z) -> KeyOf z k) by (apply (keys_ok e KeyOf Honest Signed W inp Hheld Hfits z HZ (IK HZ)); exists ks; exact KS).
      assert (DE : delegations inp (rs_name s) = flat_map ds_of (rrset inp (rs_name s) 43)) by (unfold delegations; destruct (list_eq_dec N.eq_dec (rs_name s) [46]); [contradiction | reflexivity]).
      assert (RE : rrset inp (rs_name s) 43 <> []) by (intros Z; apply NE; rewrite DE, Z; reflexivity).
      destruct G as [(GI & _ & _) GV]. rewrite T in GV.
      destruct (valid_published e KeyOf Honest Signed W inp Hheld Hfits z _ s (rs_name s) 43 HZ (fun k Hk _ => HK k Hk) GV GI T (clear43 inp (rs_name s)) RE) as (s0 & rs & S0 & T0 & _ & _ & _ & _ & _ & P & _ & NW).
      assert (ZN : rs_name s = rs_name s0) by (apply NW; left; eapply (wo_plain _ _ _ _ W); eauto). rewrite <- ZN, map_rename_self in P.
      assert (PN : proper_name (rs_name s)).
      { destruct (wo_rrset _ _ _ _ W z s0 rs S0) as (_ & (ls & P1 & P2 & _) & _). exists ls. split; [exact P1 |]. split; [congruence |]. apply valid_lower.
        rewrite Forall_forall in Hheld. apply Hheld in GI. apply GI. }
      split; [right; split; [exact PN |]; exists z, s0, rs, (c :: p); auto 6 |].
      intros HO k Hk D. destruct (key_held inp Hheld _ _ Hk) as [A B]. rewrite ZN. apply (wo_ds _ _ _ _ W z s0 rs k S0 T0 A); [congruence |].
      rewrite DE in D. eapply delegated_list; [| exact D]. apply perm_flat_map. exact P.
  Qed.

  Lemma wished_perm a b keys : Permutation a b -> Wished e a keys -> Wished e b keys.
  Proof.
    intros P (N & H). split; [intros ->; apply Permutation_sym, Permutation_nil in P; contradiction |].
    destruct H as [H | (d & k & H1 & H2)]; [left; eapply Permutation_Forall; eauto | right; exists d, k; split; [eapply Permutation_in; eauto | exact H2]].
  Qed.

  Lemma unsup_published dbg fuel : verify_rr_stream e dbg fuel inp = Err UnsupportedAlgorithm ->
    exists z, Cut e inp z /\ z <> [46] /\
      ((forall d p, z = p ++ d -> p <> [] -> proper_name d -> Honest d) ->
       exists zp s rs p, z = p ++ zp /\ Signed zp s rs /\ rs_ty s = 43 /\ rs_name s = z /\ Permutation (rrset inp z 43) rs /\
         Wished e (flat_map ds_of rs) (fun k => In (RR_DnsKey k) (rrset inp z 48))).
  Proof.
    intros H. destruct (unsup_wished e inp Hheld dbg fuel H) as (z & C & NZ & Wi). exists z. split; [exact C |]. split; [exact NZ |]. intros HU.
    assert (DE : delegations inp z = flat_map ds_of (rrset inp z 43)) by (unfold delegations; destruct (list_eq_dec N.eq_dec z [46]); [contradiction | reflexivity]).
    destruct (cut_published z C HU) as [[E | (_ & zp & s & rs & p & EP & S0 & T0 & N0 & P)] _]; [rewrite DE; apply Wi | contradiction |].
    exists zp, s, rs, p. repeat (split; [assumption |]). eapply wished_perm; [| exact Wi]. apply perm_flat_map. exact P.
  Qed.

  Lemma unsup_never dbg fuel : (forall z, Honest z) ->
    (forall z s rs d, Signed z s rs -> In (RR_DS d) rs -> KnownDigest d /\ supported_alg (ds_alg d)) ->
    verify_rr_stream e dbg fuel inp <> Err UnsupportedAlgorithm.
  Proof.
    intros HO HS H. destruct (unsup_published dbg fuel H) as (z & _ & _ & G). destruct G as (zp & s & rs & p & _ & S0 & _ & _ & _ & N & Wi); [auto |].
    assert (IN : forall d, In d (flat_map ds_of rs) -> KnownDigest d /\ supported_alg (ds_alg d)).
    { intros d Hd. apply in_flat_map in Hd as (r & Hr & Hd). destruct r; try contradiction. destruct Hd as [<- | []]. eapply HS; eauto. }
    destruct Wi as [Wi | (d & k & D1 & D2 & _)].
    - destruct (flat_map ds_of rs) as [| d l]; [congruence |]. inversion Wi as [| ? ? A _]; subst. apply A. apply (IN d). left. reflexivity.
    - apply D2. apply IN. exact D1.
  Qed.
End Sec.
