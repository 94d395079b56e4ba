(** Why verification fails (for C88). *)
From Verif Require Import Base BaseP NameM WireM RRM SerM ValM NameSpec NameP RecSpec CodecSpec CodecP ValSpec ValP ValP2 ValP3 ValP4 ValP5 DupP AcceptSpec AcceptP AcceptP2 AcceptP3 AcceptP4 AcceptP5 DbgP WhySpec.
From Coq Require Import Permutation Arith.
Local Open Scope N_scope.

Lemma known_existsb dss : existsb (fun d => (ds_digest_type d =? 1) || (ds_digest_type d =? 2) || (ds_digest_type d =? 4)) dss = true <->
  exists d, In d dss /\ known_digest d.
Proof.
  rewrite existsb_exists. split; intros (d & H1 & H2); exists d; (split; [exact H1 |]); unfold known_digest in *.
  - apply orb_true_iff in H2 as [H2 | H2]; [apply orb_true_iff in H2 as [H2 | H2] |]; apply N.eqb_eq in H2; auto.
  - destruct H2 as [-> | [-> | ->]]; reflexivity.
Qed.

Section Why.
  Variables (e : env) (inp : list RR).
  Hypothesis Hheld : Forall Held inp.

  Lemma unknown_validated dss z x : In (RR_RRSig x) inp ->
    (verify_rrsig e false x (validated_dnskeys e dss (zone_dnskeys inp z)) (rrset inp z 48) = Err UnsupportedAlgorithm <->
     UnknownSig (DelegatedKey e dss) (keys_at inp z) x (rrset inp z 48)).
  Proof.
    intros Hx. rewrite unsup_spec; [| eapply held_rrsig; eauto | apply held_rrset; exact Hheld]. unfold UnknownSig.
    split; intros (H1 & H0 & k & msg & H2 & H3); (split; [exact H1 |]; split; [exact H0 |]; exists k, msg; split; [apply (chosen_validated e inp Hheld); exact H2 | exact H3]).
  Qed.

  Lemma sigs_lacking dss z sigs : (forall s, In s sigs -> In (RR_RRSig s) inp) -> forall b,
    verify_dnskey_sigs e false sigs (validated_dnskeys e dss (zone_dnskeys inp z)) (zone_dnskeys inp z) b = Err UnsupportedAlgorithm <->
    (b = true \/ sigs <> []) /\ Forall (fun x => UnknownSig (DelegatedKey e dss) (keys_at inp z) x (rrset inp z 48)) sigs.
  Proof.
    induction sigs as [| x sigs IH]; intros Hin b; cbn [verify_dnskey_sigs].
    - destruct b; (split; [| intros [[H | H] _]; congruence]); intros H; [split; [auto | apply Forall_nil] | discriminate H].
    - assert (U := unknown_validated dss z x (Hin x (or_introl eq_refl))). rewrite zone_keys_rrset.
      set (o := verify_rrsig e false x _ _) in *. clearbody o.
      assert (NO : o <> Err UnsupportedAlgorithm -> ~ ((b = true \/ x :: sigs <> []) /\ Forall (fun x => UnknownSig (DelegatedKey e dss) (keys_at inp z) x (rrset inp z 48)) (x :: sigs))).
      { intros N [_ H]. inversion H; subst. tauto. }
      destruct o as [[] | [] | |].
      + split; [discriminate | intros H; exfalso; apply NO; [discriminate | exact H]].
      + rewrite IH by (intros y Hy; apply Hin; right; exact Hy). split.
        * intros [_ H]. split; [right; discriminate | apply Forall_cons; [tauto | exact H]].
        * intros [_ H]. inversion H; subst. auto.
      + split; [discriminate | intros H; exfalso; apply NO; [discriminate | exact H]].
      + split; [discriminate | intros H; exfalso; apply NO; [discriminate | exact H]].
      + split; [discriminate | intros H; exfalso; apply NO; [discriminate | exact H]].
  Qed.

  Lemma lacking_spec z : verify_dnskeys e false (dnskey_rrsigs inp z) (dss_of inp z) (zone_dnskeys inp z) = Err UnsupportedAlgorithm <-> Lacking e inp z.
  Proof.
    unfold Lacking. rewrite (dss_of_eq inp), (sigs_over_eq inp). set (dss := delegations inp z). clearbody dss.
    assert (S := sigs_lacking dss z (dnskey_rrsigs inp z) (fun x Hx => proj1 (proj1 (in_dnskey_rrsigs inp z x) Hx)) false).
    unfold verify_dnskeys. destruct (is_nil dss) eqn:N.
    { assert (dss = []) by (destruct dss; [reflexivity | discriminate]). subst dss. split; [discriminate |]. intros [[H _] | [(d & [] & _) _]]. congruence. }
    assert (ND : dss <> []) by (intros ->; discriminate).
    destruct (existsb (fun d => (ds_digest_type d =? 1) || (ds_digest_type d =? 2) || (ds_digest_type d =? 4)) dss) eqn:K; cbn [negb].
    - apply known_existsb in K. rewrite S. split.
      + intros [[H | H] F]; [discriminate |]. right. auto.
      + intros [[_ H] | (_ & H1 & H2)]; [| auto]. exfalso. destruct K as (d & D1 & D2). rewrite Forall_forall in H. exact (H d D1 D2).
    - split; [| reflexivity]. intros _. left. split; [exact ND |]. rewrite Forall_forall. intros d D1 D2.
      assert (existsb (fun d => (ds_digest_type d =? 1) || (ds_digest_type d =? 2) || (ds_digest_type d =? 4)) dss = true) by (apply known_existsb; eauto). congruence.
  Qed.

  Hypothesis Hmax : forall s, In (RR_RRSig s) inp -> ~ EmptyMaxLabels inp s.

  Lemma settled_done z : zdone e inp z <-> Settled e inp z.
  Proof.
    unfold zdone, Settled. split; intros [(k & K) F]; (split; [exists k; apply (keysig_spec e inp Hheld); exact K |]).
    - intros s Hs. assert (HI : In s (zone_rrsigs inp z)) by (apply in_zone_rrsigs; exact Hs). destruct (F s HI) as [D1 D2]. apply ends_with_spec in D1. split; [exact D1 |].
      destruct D2 as [D2 | (D2 & D3 & D4)].
      + left. apply (passed_unsup e inp Hheld); auto.
      + right. assert (G : GoodSig e inp z s) by (apply (good_ok e inp Hheld); auto). split; [exact G |]. apply (fits_spec e inp Hheld Hmax z s G). auto.
    - intros s Hs. apply in_zone_rrsigs in Hs as HZ. destruct (F s HZ) as [A1 A2]. split; [apply ends_with_spec; exact A1 |]. destruct A2 as [A2 | [A2 A3]].
      + left. apply (passed_unsup e inp Hheld) in A2. apply A2.
      + right. pose proof (proj1 (fits_spec e inp Hheld Hmax z s A2) A3) as [F1 F2]. apply (good_ok e inp Hheld) in A2 as [_ A2]. auto.
  Qed.

  Lemma settled_lacking z : Settled e inp z -> ~ Lacking e inp z.
  Proof. intros S L. apply settled_done in S as [(k & K) _]. apply lacking_spec in L. unfold keysig in K. congruence. Qed.

  Lemma arrived_visited z : Arrived e inp z -> Visited e inp z.
  Proof. induction 1 as [| z s A IH _ G T]; [apply Vi_root | eapply Vi_child; eauto]. Qed.

  (** ** The loop *)
  Definition arrived (st : vstate) : Prop := forall z d, In (z, d) (v_pending st) -> Arrived e inp z.

  Lemma next_arrived st : arrived st -> v_zone st = root_name \/ v_pending st <> [] -> Arrived e inp (next_zone st).
  Proof.
    intros C HZ. unfold next_zone. destruct (pop_cases st) as [[E ->] | (z & d & rest & E & ->)]; cbn [fst v_zone].
    - destruct HZ as [-> | HZ]; [apply Ar_root | congruence].
    - apply (C z d). rewrite E. left. reflexivity.
  Qed.
  Lemma arrived_step vis st st' : seen e inp vis st -> arrived st -> v_zone st = root_name \/ v_pending st <> [] -> zone_step e false inp st = Ok st' -> arrived st'.
  Proof.
    intros S C HZ H. pose proof (next_arrived st C HZ) as NC.
    destruct (zone_step_effect e inp st st' (se_pend _ _ _ _ S) HZ H) as [D (_ & _ & _ & _ & _ & _ & (new & P & Q) & _)]. apply settled_done in D.
    intros z d Hp. rewrite P in Hp. apply in_app_or in Hp as [Hp | Hp].
    - apply Q in Hp as (s & S1 & S2 & S3 & S4). assert (E : z = rs_name s) by congruence. subst z.
      apply (Ar_child e inp (next_zone st) s); auto. apply (good_ok e inp Hheld); auto.
    - apply (C z d). destruct (v_pending st); [destruct Hp | right; exact Hp].
  Qed.

  Lemma step_why st x : pend_ok e inp st -> v_zone st = root_name \/ v_pending st <> [] -> zone_step e false inp st = Err x ->
    match x with UnsupportedAlgorithm => Lacking e inp (next_zone st) | Invalid => Broken e inp (next_zone st) end.
  Proof.
    intros HP HZ H. assert (N : ~ Settled e inp (next_zone st)).
    { intros S. apply settled_done in S. apply (zone_step_fine e inp st HP HZ) in S as (st' & S). congruence. }
    rewrite (zone_step_eq e inp st HP HZ) in H. pose proof (lacking_spec (next_zone st)) as L.
    destruct (verify_dnskeys e false (dnskey_rrsigs inp (next_zone st)) (dss_of inp (next_zone st)) (zone_dnskeys inp (next_zone st))) as [s|er| |] eqn:V; cbn [obind] in H; try discriminate.
    - destruct x; [exfalso; eapply sigs_not_unsupported; eauto |]. split; [exact N |]. intros G. apply L in G. discriminate.
    - assert (er = x) by congruence. subst er. destruct x; [apply L; reflexivity |]. split; [exact N |]. intros G. apply L in G. discriminate.
  Qed.

  Lemma loop_why fuel x : forall vis st, seen e inp vis st -> arrived st -> zone_loop e false inp fuel st = Err x ->
    exists z, Arrived e inp z /\ match x with UnsupportedAlgorithm => Lacking e inp z | Invalid => Broken e inp z end.
  Proof.
    induction fuel as [| f IH]; intros vis st S C H; cbn [zone_loop] in H; destruct (bytes_eqb (v_zone st) root_name || negb (is_nil (v_pending st))) eqn:G; try discriminate.
    apply loop_guard in G. destruct (zone_step e false inp st) as [st1|er| |] eqn:Z; cbn [obind] in H; try discriminate.
    - eapply IH; [eapply seen_step; eauto | eapply arrived_step; eauto | exact H].
    - assert (er = x) by congruence. subst er. exists (next_zone st). split; [apply next_arrived; auto | apply (step_why st x); auto; apply (se_pend _ _ _ _ S)].
  Qed.

  Lemma proof_loop_err res : forall fuel needs x, proof_loop e res fuel needs = Err x -> x = Invalid /\ exists nd t, In nd needs /\ discharge e res nd t = None.
  Proof.
    induction fuel as [| f IH]; intros [| nd t] x H; cbn [proof_loop] in H; try discriminate.
    destruct (discharge e res nd t) as [t' |] eqn:D.
    - apply IH in H as (-> & nd' & u & H1 & H2). split; [reflexivity |]. exists nd', u. split; [| exact H2]. right.
      revert H1. revert D. clear. unfold discharge. destruct nd as [[nm z] ty]. destruct (find _ _).
      + intros E H. assert (t' = retain_needs nm (nsec_matches n nm) (ns_types n) t) by congruence. subst. unfold retain_needs in H. apply filter_In in H. apply H.
      + destruct (nsec3_find _ _ _) as [[n m] |]; [| discriminate]. intros E H. assert (t' = retain_needs nm m (n3_types n) t) by congruence. subst. unfold retain_needs in H. apply filter_In in H. apply H.
    - split; [congruence |]. exists nd, t. split; [left; reflexivity | exact D].
  Qed.

  Lemma all_settled st : complete e inp st -> forall z, Visited e inp z -> Settled e inp z.
  Proof. intros C z Hz. apply settled_done. apply (co_done _ _ _ C). apply (reach_visited e inp Hheld). exact Hz. Qed.

  Lemma finish_why fuel st x : SortsNeeds e -> TwoParams e inp -> zone_loop e false inp fuel vinit = Ok st -> finish_verify e st = Err x -> x = Invalid /\ Unusable e inp.
  Proof.
    intros HS HT Z H. pose proof (loop_complete _ _ _ _ Z) as C. unfold finish_verify in H. destruct (is_nil (v_res st)) eqn:N.
    { split; [congruence |]. left. intros r P. apply (proven_iff e inp Hheld), (co_res _ _ _ C) in P. destruct (v_res st); [destruct P | discriminate]. }
    destruct (v_expiry st <=? v_inception st) eqn:W.
    { split; [congruence |]. right. left. apply N.leb_le in W. destruct (complete_window e inp Hheld st C) as (L & HL & (M1 & _) & (M2 & _) & _).
      apply in_map_iff in M1 as (a & A & Ha), M2 as (b & B & Hb). exists a, b. split; [apply HL; exact Ha |]. split; [apply HL; exact Hb |]. rewrite A, B. exact W. }
    cbv zeta in H. destruct (proof_loop e (v_res st) _ _) as [u|er| |] eqn:P; cbn [obind] in H; try discriminate.
    assert (er = x) by congruence. subst er. apply proof_loop_err in P as (-> & [[nm z] ty] & t & I & D). split; [reflexivity |]. right. right. exists z, nm, ty.
    rewrite <- in_rev in I. apply (Permutation_in _ (Permutation_sym (HS _))) in I. apply (complete_needs e inp Hheld Hmax st C) in I. split; [exact I |].
    intros G. apply (complete_denied e inp Hheld st z nm ty C) in G. revert D.
    apply discharge_conv; [apply (complete_held e inp Hheld st C) | | eapply needs_valid; eauto | exact G].
    destruct (HT z nm ty I) as (p & q & HPQ). exists p, q. intros n pre In_res. apply HPQ. apply (co_res _ _ _ C), (proven_iff e inp Hheld) in In_res. exact In_res.
  Qed.

  Lemma release dbg fuel : verify_rr_stream e dbg fuel inp <> Panic -> verify_rr_stream e dbg fuel inp = verify_rr_stream e false fuel inp.
  Proof. destruct dbg; [| reflexivity]. intros H. symmetry. apply verify_same. exact H. Qed.

  Lemma unsup_reason dbg fuel : verify_rr_stream e dbg fuel inp = Err UnsupportedAlgorithm -> exists z, Arrived e inp z /\ Lacking e inp z.
  Proof.
    intros H0. rewrite release in H0 by congruence. revert H0. unfold verify_rr_stream. destruct (zone_loop e false inp fuel vinit) as [st|er| |] eqn:Z; cbn [obind]; try discriminate.
    - unfold finish_verify. destruct (is_nil _); [discriminate|]. destruct (_ <=? _); [discriminate|]. cbv zeta.
      destruct (proof_loop e (v_res st) _ _) as [u|er| |] eqn:P; cbn [obind]; try discriminate. apply proof_loop_err in P as [-> _]. discriminate.
    - intros H. assert (er = UnsupportedAlgorithm) by congruence. subst er. apply (loop_why fuel _ [] vinit) in Z; [exact Z | apply seen_init | intros z d []].
  Qed.

  Lemma invalid_reason dbg fuel : SortsNeeds e -> TwoParams e inp -> verify_rr_stream e dbg fuel inp = Err Invalid ->
    (exists z, Arrived e inp z /\ Broken e inp z) \/ ((forall z, Visited e inp z -> Settled e inp z) /\ Unusable e inp).
  Proof.
    intros HS HT H0. rewrite release in H0 by congruence. revert H0. unfold verify_rr_stream. destruct (zone_loop e false inp fuel vinit) as [st|er| |] eqn:Z; cbn [obind]; try discriminate.
    - intros H. right. split; [apply (all_settled st), (loop_complete _ _ _ _ Z) | eapply finish_why; eauto].
    - intros H. assert (er = Invalid) by congruence. subst er. left. apply (loop_why fuel _ [] vinit) in Z; [exact Z | apply seen_init | intros z d []].
  Qed.

  Lemma verdict_cases dbg fuel : Ends e inp dbg fuel ->
    (exists v, verify_rr_stream e dbg fuel inp = Ok v) \/ verify_rr_stream e dbg fuel inp = Err UnsupportedAlgorithm \/ verify_rr_stream e dbg fuel inp = Err Invalid.
  Proof. intros [NL NP]. destruct (verify_rr_stream e dbg fuel inp) as [v|[]| |] eqn:V; auto; [eauto | contradiction | contradiction]. Qed.

  Lemma accepted_settled dbg fuel v : verify_rr_stream e dbg fuel inp = Ok v -> Acceptable e inp /\ forall z, Visited e inp z -> Settled e inp z.
  Proof.
    intros H. rewrite release in H by congruence. pose proof (accepted_acceptable e inp Hheld Hmax fuel v H) as A. split; [exact A |].
    intros z Hz. split; [apply (ac_keys _ _ A); exact Hz | intros s Hs; apply (ac_sigs _ _ A); assumption].
  Qed.

  Lemma unsup_exactly dbg fuel : Ends e inp dbg fuel -> (forall z, Arrived e inp z -> ~ Broken e inp z) ->
    (verify_rr_stream e dbg fuel inp = Err UnsupportedAlgorithm <-> exists z, Arrived e inp z /\ Lacking e inp z).
  Proof.
    intros NL NB. split; [apply unsup_reason |]. intros (z & A & L). destruct (verdict_cases dbg fuel NL) as [(v & V) | [V | V]]; [| exact V |].
    - exfalso. apply accepted_settled in V as [_ S]. apply (settled_lacking z); [apply S, arrived_visited; exact A | exact L].
    - exfalso. rewrite release in V by congruence. revert V. unfold verify_rr_stream. destruct (zone_loop e false inp fuel vinit) as [st|er| |] eqn:Z; cbn [obind]; try discriminate.
      + intros _. apply (settled_lacking z); [| exact L]. apply (all_settled st), arrived_visited; [apply (loop_complete _ _ _ _ Z) | exact A].
      + intros H. assert (er = Invalid) by congruence. subst er. apply (loop_why fuel _ [] vinit) in Z as (y & Y & B); [exact (NB y Y B) | apply seen_init | intros y d []].
  Qed.

  Lemma invalid_exactly dbg fuel : SortsNeeds e -> TwoParams e inp -> OneZone e inp -> Ends e inp dbg fuel ->
    (forall z, Arrived e inp z -> ~ Lacking e inp z) ->
    (verify_rr_stream e dbg fuel inp = Err Invalid <->
     (exists z, Arrived e inp z /\ Broken e inp z) \/ ((forall z, Visited e inp z -> Settled e inp z) /\ Unusable e inp)).
  Proof.
    intros HS HT HO NL NB. split; [apply invalid_reason; assumption |]. intros R. destruct (verdict_cases dbg fuel NL) as [(v & V) | [V | V]]; [| | exact V].
    - exfalso. pose proof V as V'. rewrite release in V' by congruence. pose proof (accepted_denials e inp Hheld Hmax fuel v HS HO V') as D. apply accepted_settled in V as [A S].
      destruct R as [(z & A1 & B) | [_ [U | [(a & b & Ua & Ub & U) | (z & nc & ty & U1 & U2)]]]].
      + apply (proj1 B), S, arrived_visited, A1.
      + destruct (ac_some _ _ A) as (r & P). exact (U r P).
      + pose proof (ac_window _ _ A a b Ua Ub). lia.
      + apply U2, D, U1.
    - exfalso. apply unsup_reason in V as (z & A & L). exact (NB z A L).
  Qed.
End Why.
