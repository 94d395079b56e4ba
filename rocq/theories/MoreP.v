(** Proofs for Prop_More. *)
From Verif Require Import Base BaseP NameM WireM RRM SerM ValM NameSpec RecSpec ValSpec ValP ValP2 ValP3 AcceptSpec AcceptP4 MoreSpec.
Local Open Scope N_scope.

Lemma crypto_supported e s k msg : CryptoOk e s k msg -> supported_alg (rs_alg s).
Proof. unfold supported_alg. intros [? ? H | ? ? H | H | H | H]; rewrite ?H; cbn; auto 10. Qed.
Lemma signed_supported e inp u z s : SignedByZone e inp u z s -> supported_alg (rs_alg s).
Proof. intros (_ & _ & _ & k & _ & _ & _ & o & m & _ & _ & C). eapply crypto_supported; eauto. Qed.
Lemma rrset_incl inp inp' n ty : incl inp inp' -> incl (rrset inp n ty) (rrset inp' n ty).
Proof. intros I r Hr. apply in_rrset in Hr as (A & B). apply in_rrset. auto. Qed.

Lemma more_reached e dbg fuel inp inp' v' : Forall Held inp' -> verify_rr_stream e dbg fuel inp' = Ok v' -> incl inp inp' ->
  forall z, TrustedZone e inp (fun _ => True) z -> Reached e inp' z.
Proof.
  intros HH H I z T. induction T as [_ | p z s T IH S E1 E2 _ _]; [constructor |]. subst z.
  destruct (verified_complete e dbg fuel inp' v' HH H p IH) as (_ & C). destruct (C s) as [N | (G & _)].
  - apply I, S.
  - apply S.
  - rewrite E2. discriminate.
  - exfalso. apply N. eapply signed_supported; eauto.
  - eapply Re_child; eauto.
Qed.
Lemma more_records e dbg fuel fuel' inp inp' v v' : Forall Held inp' -> incl inp inp' ->
  verify_rr_stream e dbg fuel inp = Ok v -> verify_rr_stream e dbg fuel' inp' = Ok v' -> incl (vr_rrs v) (vr_rrs v').
Proof.
  intros HH' I H H' r Hr. assert (HH : Forall Held inp) by (rewrite Forall_forall in *; auto).
  destruct (verified_authentic e dbg fuel inp v HH H r Hr) as (z & s & T & S & R).
  destruct (proj1 (verified_input e dbg fuel inp v HH H) r Hr) as (_ & M). pose proof R as R0. apply in_rrset in R0 as (_ & _ & R0).
  destruct (verified_complete e dbg fuel' inp' v' HH' H' z (more_reached _ _ _ _ _ _ HH' H' I z T)) as (_ & C). destruct (C s) as [N | (_ & _ & [D | D])].
  - apply I, S.
  - apply S.
  - intros E. apply M. rewrite R0, E. cbn. auto.
  - exfalso. apply N. eapply signed_supported; eauto.
  - exfalso. apply M. rewrite R0. exact D.
  - apply D. eapply rrset_incl; eauto.
Qed.

Lemma first_same {A} (P : A -> Prop) s s' : forall pre pre' x y, Forall (fun a => ~ P a) pre -> P s -> Forall (fun a => ~ P a) pre' -> P s' ->
  pre ++ s :: x = pre' ++ s' :: y -> s = s'.
Proof.
  induction pre as [| a pre IH]; intros [| b pre'] x y F Ps F' Ps' E; cbn [app] in E; injection E as E1 E2; subst.
  - reflexivity.
  - inversion F'; subst. contradiction.
  - inversion F; subst. contradiction.
  - inversion F; inversion F'; subst. eapply IH; eauto.
Qed.
Lemma valid_supported e P keys s rs : ValidSig e P keys s rs -> supported_alg (rs_alg s).
Proof. intros (_ & k & m & _ & _ & C). eapply crypto_supported; eauto. Qed.
Section Window.
  Variables (e : env) (inp inp' : list RR).
  Hypothesis HI : incl inp inp'.
  Hypothesis HA : Acceptable e inp'.
  Lemma more_good z s : Visited e inp' z -> GoodSig e inp z s -> GoodSig e inp' z s.
  Proof.
    intros V ((G1 & G2) & G3). assert (Z : ZoneSig inp' z s) by (split; [apply HI, G1 | exact G2]).
    destruct (ac_sigs _ _ HA z s V Z) as (_ & [P | (G & _)]); [| exact G]. exfalso. destruct P as (_ & _ & N & _). apply N. eapply valid_supported; eauto.
  Qed.
  Lemma more_visited z : Visited e inp z -> Visited e inp' z.
  Proof. induction 1 as [| z s V IH G T]; [constructor |]. eapply Vi_child; [exact IH | apply more_good; assumption | exact T]. Qed.
  Lemma more_used : KeySigsKept inp inp' -> forall s, Used e inp s -> Used e inp' s.
  Proof.
    intros K s (z & V & [(pre & post & E & U & G) | G]); exists z; (split; [apply more_visited, V |]).
    - left. destruct (ac_keys _ _ HA z (more_visited z V)) as (s' & S'). pose proof S' as (pre' & post' & E' & U' & G').
      destruct (K z) as (more & M). rewrite E, E', <- app_assoc in M. cbn [app] in M.
      assert (X : s = s'); [| subst s'; exact S'].
      symmetry in M. revert M. apply (first_same (fun x => supported_alg (rs_alg x))).
      + eapply Forall_impl; [| exact U]. intros a (_ & N & _). exact N.
      + eapply valid_supported; eauto.
      + eapply Forall_impl; [| exact U']. intros a (_ & N & _). exact N.
      + eapply valid_supported; eauto.
    - right. apply more_good; [apply more_visited, V | exact G].
  Qed.
End Window.
Lemma more_window e fuel fuel' inp inp' v v' : Forall Held inp' -> (forall s, In (RR_RRSig s) inp' -> ~ EmptyMaxLabels inp' s) -> incl inp inp' -> KeySigsKept inp inp' ->
  verify_rr_stream e false fuel inp = Ok v -> verify_rr_stream e false fuel' inp' = Ok v' -> NoLonger v v'.
Proof.
  intros HH' HM I K H H'. assert (HH : Forall Held inp) by (rewrite Forall_forall in *; auto).
  destruct (verdict_result e inp fuel v HH H) as (_ & L & L1 & (A1 & _) & (A2 & _) & (A3 & _)).
  destruct (verdict_result e inp' fuel' v' HH' H') as (_ & L' & L1' & (_ & B1) & (_ & B2) & (_ & B3)).
  pose proof (verdict_necessary e inp' fuel' v' HH' HM H') as A. rewrite Forall_forall in B1, B2, B3.
  assert (X : forall s, In s L -> In s L') by (intros s Hs; apply L1', (more_used e inp inp' I A K), L1, Hs).
  split; [| split].
  - apply B1. apply in_map_iff in A1 as (s & <- & Hs). apply (in_map (fun s => resolve_time (rs_inception s))), X, Hs.
  - apply B2. apply in_map_iff in A2 as (s & <- & Hs). apply (in_map (fun s => resolve_time (rs_expiration s))), X, Hs.
  - apply B3. apply in_map_iff in A3 as (s & <- & Hs). apply (in_map rs_orig_ttl), X, Hs.
Qed.
Lemma append_kept inp extra : KeySigsKept inp (inp ++ extra).
Proof. intros z. exists (sigs_over extra z 48). unfold sigs_over. apply flat_map_app. Qed.

Lemma alias_cname rrs nm : find_cname rrs nm = find_cname (aliases rrs) nm.
Proof.
  unfold find_cname. replace (flat_map _ (aliases rrs)) with (flat_map (fun r => match r with RR_CName c => if bytes_eqb (cn_name c) nm then [c] else [] | _ => [] end) rrs); [reflexivity |].
  induction rrs as [| r rrs IH]; [reflexivity |]. unfold aliases. cbn [filter flat_map]. rewrite IH. destruct r; reflexivity.
Qed.
Lemma alias_dname rrs nm : find_dname rrs nm = find_dname (aliases rrs) nm.
Proof.
  unfold find_dname. replace (flat_map _ (aliases rrs)) with (flat_map (fun r => match r with RR_DName d => if ends_with nm (dn_name d) then [d] else [] | _ => [] end) rrs); [reflexivity |].
  induction rrs as [| r rrs IH]; [reflexivity |]. unfold aliases. cbn [filter flat_map]. rewrite IH. destruct r; reflexivity.
Qed.
Lemma resolve_more rrs rrs' : aliases rrs = aliases rrs' -> incl rrs rrs' -> forall fuel nm a, resolve_name rrs fuel nm = Ok a ->
  exists a', resolve_name rrs' fuel nm = Ok a' /\ incl a a'.
Proof.
  intros E I. induction fuel as [| f IH]; intros nm a H; cbn [resolve_name] in *; [discriminate |].
  rewrite (alias_cname rrs'), <- E, <- alias_cname. destruct (find_cname rrs nm); [auto |].
  rewrite (alias_dname rrs'), <- E, <- alias_dname. destruct (find_dname rrs nm).
  - destruct (strip_suffix nm (dn_name d)); [| discriminate]. destruct (name_try_from _); [auto |]. exists a. split; [exact H | apply incl_refl].
  - injection H as <-. eexists. split; [reflexivity |]. intros r Hr. apply filter_In in Hr as (A & B). apply filter_In. auto.
Qed.
Lemma more_answers e dbg fuel fuel' inp inp' v v' : Forall Held inp' -> incl inp inp' ->
  verify_rr_stream e dbg fuel inp = Ok v -> verify_rr_stream e dbg fuel' inp' = Ok v' -> aliases (vr_rrs v) = aliases (vr_rrs v') ->
  forall f nm a, resolve_name (vr_rrs v) f nm = Ok a -> exists a', resolve_name (vr_rrs v') f nm = Ok a' /\ incl a a'.
Proof. intros HH I H H' E f nm a R. eapply resolve_more; eauto. eapply more_records; eauto. Qed.
