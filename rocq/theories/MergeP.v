(** Proofs for C75: from the exact description of the verdict (C60). *)
From Verif Require Import Base BaseP NameM WireM RRM Base32M ValM NameSpec NameP RecSpec CodecSpec CodecP OrdP ValSpec ValP ValP2 ValP3 ValP4 ValP5 OrdRR OrderSpec OrderP DupP AcceptSpec AcceptP AcceptP2 AcceptP3 AcceptP4 AcceptP5 MergeSpec.
From Coq Require Import Permutation Arith.
Local Open Scope N_scope.

Lemma in_merged a b r : In r (merged a b) <-> In r a \/ In r b.
Proof.
  unfold merged. rewrite in_app_iff, filter_In. destruct (in_dec rr_eq_dec r a) as [H | H]; [tauto |]. tauto.
Qed.
Lemma nodup_merged a b : NoDup a -> NoDup b -> NoDup (merged a b).
Proof.
  intros A B. unfold merged. induction A as [| x a N A IH]; cbn [app].
  - apply NoDup_filter. exact B.
  - constructor.
    + intros H. apply in_app_iff in H as [H | H]; [contradiction |]. apply filter_In in H as [_ H]. destruct (in_dec rr_eq_dec x (x :: a)) as [H' | H']; [discriminate | apply H'; left; reflexivity].
    + clear IH. assert (G : forall y, In y (filter (fun r => if in_dec rr_eq_dec r (x :: a) then false else true) b) -> ~ In y a).
      { intros y Hy Hy'. apply filter_In in Hy as [_ Hy]. destruct (in_dec rr_eq_dec y (x :: a)) as [H' | H']; [discriminate | apply H'; right; exact Hy']. }
      assert (F : NoDup (filter (fun r => if in_dec rr_eq_dec r (x :: a) then false else true) b)) by (apply NoDup_filter; exact B).
      revert A G F. generalize (filter (fun r => if in_dec rr_eq_dec r (x :: a) then false else true) b). intros c A G F.
      clear N. induction A as [| y a N A IH]; cbn [app]; [exact F |]. constructor.
      * intros H. apply in_app_iff in H as [H | H]; [contradiction | apply (G y H); left; reflexivity].
      * apply IH. intros w Hw Hw'. apply (G w Hw). right. exact Hw'.
Qed.
Lemma valid_supported e P keys s rs : ValidSig e P keys s rs -> supported_alg (rs_alg s).
Proof. intros (_ & k & msg & _ & _ & C). unfold supported_alg. cbn. destruct C; intuition (subst; auto). Qed.

(** ** A part of a list: everything said of its signatures remains so. *)
Section Part.
  Variables (e : env) (x m : list RR).
  Hypothesis HI : forall r, In r x -> In r m.
  Hypothesis HR : forall s, In (RR_RRSig s) x -> Permutation (rrset x (rs_name s) (rs_ty s)) (rrset m (rs_name s) (rs_ty s)).
  Hypothesis HO : OneKey m.

  Lemma chosen_part (P Q : dnskey -> Prop) z s k : (P k -> Q k) -> Chosen P s (keys_at x z) k -> Chosen Q s (keys_at m z) k.
  Proof.
    intros PQ (pre & post & H1 & H2 & H3 & H4). assert (K : In k (keys_at x z)) by (rewrite H1; apply in_or_app; right; left; reflexivity).
    apply in_keys_at in K as [K1 K2]. apply chosen_first; auto.
    - apply in_keys_at. auto.
    - intros k' Hk' F. apply in_keys_at in Hk' as [Q1 Q2]. apply HO; auto; [congruence | |].
      + destruct F as [F _], H4 as [H4 _]. congruence.
      + destruct F as (_ & _ & _ & F), H4 as (_ & _ & _ & H4). congruence.
  Qed.
  Lemma valid_part (P Q : dnskey -> Prop) z s n t : (forall k, P k -> Q k) -> Permutation (rrset x n t) (rrset m n t) ->
    ValidSig e P (keys_at x z) s (rrset x n t) -> ValidSig e Q (keys_at m z) s (rrset m n t).
  Proof.
    intros PQ HP (H1 & k & msg & H2 & H3 & H4). split; [eapply Permutation_Forall; [exact HP | exact H1] |]. exists k, msg. split; [eapply chosen_part; [apply PQ | exact H2] |].
    split; [| exact H4]. rewrite <- (sort_unique _ _ HP). exact H3.
  Qed.
  Lemma unknown_part (P Q : dnskey -> Prop) z s n t : (forall k, P k -> Q k) -> Permutation (rrset x n t) (rrset m n t) ->
    UnknownSig P (keys_at x z) s (rrset x n t) -> UnknownSig Q (keys_at m z) s (rrset m n t).
  Proof.
    intros PQ HP (H1 & H0 & k & msg & H2 & H3). split; [eapply Permutation_Forall; [exact HP | exact H1] |]. split; [exact H0 |]. exists k, msg. split; [eapply chosen_part; [apply PQ | exact H2] |].
    rewrite <- (sort_unique _ _ HP). exact H3.
  Qed.
  Lemma zonesig_part z s : ZoneSig x z s -> ZoneSig m z s.
  Proof. intros (A & B). split; [apply HI; exact A | exact B]. Qed.
  Lemma good_part z s : GoodSig e x z s -> GoodSig e m z s.
  Proof. intros [A B]. split; [apply zonesig_part; exact A |]. eapply valid_part; [| apply HR, A | exact B]. auto. Qed.
  Lemma passed_part z s : PassedSig x z s -> PassedSig m z s.
  Proof. intros [A B]. split; [apply zonesig_part; exact A |]. eapply unknown_part; [| apply HR, A | exact B]. auto. Qed.
  Lemma visited_part z : Visited e x z -> Visited e m z.
  Proof. induction 1 as [| z s _ IH G T]; [constructor | apply (Vi_child _ _ z); auto using good_part]. Qed.
  Lemma proven_part r : Proven e x r -> Proven e m r.
  Proof.
    intros (z & s & H1 & H2 & H3 & H4). exists z, s. split; [apply visited_part; exact H1 |]. split; [apply good_part; exact H2 |]. split; [exact H3 |].
    eapply Permutation_in; [apply HR, H2 | exact H4].
  Qed.
  Lemma needs_part z nc ty : NeedsDenial e x z nc ty -> NeedsDenial e m z nc ty.
  Proof.
    intros (s & pre & l & suf & H1 & H2 & H3). exists s, pre, l, suf. split; [apply visited_part; exact H1 |]. split; [apply good_part; exact H2 | exact H3].
  Qed.
  Lemma denied_part z nc ty : DeniedUnder e x z nc ty -> DeniedUnder e m z nc ty.
  Proof.
    intros [(n & p & H1 & H2) | (n & p & H1 & H2)]; [left | right]; exists n, p; (split; [apply proven_part; exact H1 | exact H2]).
  Qed.
  Lemma delegated_part z k : Visited e x z -> DelegatedKey e (delegations x z) k -> DelegatedKey e (delegations m z) k.
  Proof.
    intros V. assert (D : Permutation (delegations x z) (delegations m z)).
    { unfold delegations. destruct (list_eq_dec N.eq_dec z [46]) as [| NE]; [apply Permutation_refl | apply perm_flat_map].
      destruct V as [| z s _ G T]; [contradiction |]. rewrite <- T. apply HR, G. }
    intros (d & H1 & H2 & H3 & H4). exists d.
    split; [eapply Permutation_in; eauto |]. split; [exact H2 |]. split; [exact H3 |]. destruct H4 as [H4 | (A & B & C)]; [left; exact H4 | right].
    split; [exact A |]. split; [exact B |]. eapply Permutation_Forall; eauto.
  Qed.
  Lemma keysig_part z s more : Visited e x z -> sigs_over m z 48 = sigs_over x z 48 ++ more -> KeySig e x z s -> KeySig e m z s.
  Proof.
    intros V E (pre & post & H1 & H2 & H3). assert (HP : Permutation (rrset x z 48) (rrset m z 48)).
    { assert (K : In s (sigs_over x z 48)) by (rewrite H1; apply in_or_app; right; left; reflexivity). apply in_sigs_over in K as (K1 & <- & <-). apply HR, K1. }
    exists pre, (post ++ more). split; [rewrite E, H1, <- app_assoc; reflexivity |]. split.
    - eapply Forall_impl; [| exact H2]. cbn. intros y. apply unknown_part; [| exact HP]. intros k. apply delegated_part. exact V.
    - revert H3. apply valid_part; [| exact HP]. intros k. apply delegated_part. exact V.
  Qed.
  Lemma empty_part s : In (RR_RRSig s) x -> EmptyMaxLabels x s -> EmptyMaxLabels m s.
  Proof. intros Hs (A & B). split; [| exact B]. pose proof (HR s Hs) as G. rewrite A in G. apply Permutation_nil in G. exact G. Qed.
  Lemma empty_part' s : In (RR_RRSig s) x -> EmptyMaxLabels m s -> EmptyMaxLabels x s.
  Proof. intros Hs (A & B). split; [| exact B]. pose proof (HR s Hs) as G. rewrite A in G. apply Permutation_sym, Permutation_nil in G. exact G. Qed.

  (** What the whole says of a signature of the part was so in the part. *)
  Hypothesis HT : Tidy e x.
  Hypothesis HA : Acceptable e x.
  Lemma good_back z s : In (RR_RRSig s) x -> GoodSig e m z s -> Visited e x z /\ GoodSig e x z s.
  Proof.
    intros Hs G. assert (Z : ZoneSig x z s) by (destruct G as [(_ & A & B) _]; repeat split; assumption).
    assert (V : Visited e x z) by (destruct Z as (_ & <- & B); apply (HT s Hs); exact B). split; [exact V |].
    destruct (ac_sigs _ _ HA z s V Z) as [_ [P | [A _]]]; [| exact A]. exfalso. destruct P as [_ (_ & P & _)], G as [_ G]. apply P. eapply valid_supported; eauto.
  Qed.
End Part.

Lemma keysig_unique e inp z s s' : KeySig e inp z s -> KeySig e inp z s' -> s = s'.
Proof.
  intros (pre & post & H1 & H2 & H3) (pre' & post' & H1' & H2' & H3'). rewrite H1 in H1'. clear H1.
  apply valid_supported in H3, H3'. revert pre' H1' H2'. induction H2 as [| x pre X _ IH]; intros [| x' pre'] E F; cbn in E; injection E as E1 E2.
  - exact E1.
  - subst x'. inversion F as [| ? ? Q _]. destruct Q as (_ & Q & _). contradiction.
  - subst x. destruct X as (_ & Q & _). contradiction.
  - apply (IH pre' E2). inversion F; assumption.
Qed.

Section Merge.
  Variables (e : env) (a b : list RR).
  Let m := merged a b.
  Hypothesis Ha : Forall Held a.
  Hypothesis Hb : Forall Held b.
  Hypothesis Na : NoDup a.
  Hypothesis Nb : NoDup b.
  Hypothesis Mab : NothingMore a b.
  Hypothesis Mba : NothingMore b a.
  Hypothesis HO : OneKey m.

  Lemma part_a r : In r a -> In r m.
  Proof. intros. apply in_merged. auto. Qed.
  Lemma part_b r : In r b -> In r m.
  Proof. intros. apply in_merged. auto. Qed.
  Lemma nodup_rrset inp n t : NoDup inp -> NoDup (rrset inp n t).
  Proof. apply NoDup_filter. Qed.
  Lemma rrset_a s : In (RR_RRSig s) a -> Permutation (rrset a (rs_name s) (rs_ty s)) (rrset m (rs_name s) (rs_ty s)).
  Proof.
    intros Hs. apply NoDup_Permutation; [apply nodup_rrset; exact Na | apply nodup_rrset, nodup_merged; assumption |].
    intros r. rewrite !in_rrset. unfold m. rewrite in_merged. split; [tauto |]. intros ([H | H] & H1 & H2); [auto |]. split; [apply (Mab s); auto | auto].
  Qed.
  Lemma rrset_b s : In (RR_RRSig s) b -> Permutation (rrset b (rs_name s) (rs_ty s)) (rrset m (rs_name s) (rs_ty s)).
  Proof.
    intros Hs. apply NoDup_Permutation; [apply nodup_rrset; exact Nb | apply nodup_rrset, nodup_merged; assumption |].
    intros r. rewrite !in_rrset. unfold m. rewrite in_merged. split; [tauto |]. intros ([H | H] & H1 & H2); [split; [apply (Mba s); auto | auto] | auto].
  Qed.
  Lemma sigs_a z : exists more, sigs_over m z 48 = sigs_over a z 48 ++ more.
  Proof. unfold m, merged, sigs_over. rewrite flat_map_app. eauto. Qed.
  Lemma sigs_b z : sigs_over a z 48 = [] -> sigs_over m z 48 = sigs_over b z 48.
  Proof.
    intros E. unfold m, merged. unfold sigs_over at 1. rewrite flat_map_app. fold (sigs_over a z 48). rewrite E. cbn [app].
    unfold sigs_over. clear Nb Mab Mba HO Hb m. induction b as [| r l IH]; [reflexivity |]. cbn [filter]. destruct (in_dec rr_eq_dec r a) as [H | H].
    - rewrite IH. cbn [flat_map]. destruct r as [| | | | | | | | | s | |]; try reflexivity. destruct (list_eq_dec N.eq_dec (rs_name s) z) as [E1 | E1]; [| reflexivity].
      destruct (rs_ty s =? 48) eqn:E2; [| reflexivity]. apply N.eqb_eq in E2. assert (G : In s (sigs_over a z 48)) by (apply in_sigs_over; auto). rewrite E in G. contradiction.
    - cbn [flat_map]. rewrite IH. reflexivity.
  Qed.

  Hypothesis Ta : Tidy e a.
  Hypothesis Tb : Tidy e b.
  Hypothesis Aa : Acceptable e a.
  Hypothesis Ab : Acceptable e b.

  Lemma good_merged z s : GoodSig e m z s -> (Visited e a z /\ GoodSig e a z s) \/ (Visited e b z /\ GoodSig e b z s).
  Proof.
    intros G. assert (Hs := proj1 (proj1 G)). apply in_merged in Hs as [Hs | Hs]; [left | right].
    - apply (good_back e a m); auto.
    - apply (good_back e b m); auto.
  Qed.
  Lemma visited_merged z : Visited e m z <-> Visited e a z \/ Visited e b z.
  Proof.
    split.
    - induction 1 as [| z s _ _ G T]; [left; constructor |]. apply good_merged in G as [[V G] | [V G]]; [left | right]; eapply Vi_child; eauto.
    - intros [V | V]; [apply (visited_part e a) | apply (visited_part e b)]; auto using part_a, part_b, rrset_a, rrset_b.
  Qed.
  Lemma keysig_merged z : Visited e m z -> exists s, KeySig e m z s /\ ((Visited e a z /\ KeySig e a z s) \/ (Visited e b z /\ KeySig e b z s)).
  Proof.
    intros V. apply visited_merged in V. assert (A : Visited e a z -> exists s, KeySig e m z s /\ ((Visited e a z /\ KeySig e a z s) \/ (Visited e b z /\ KeySig e b z s))).
    { intros Va. destruct (ac_keys _ _ Aa z Va) as (s & Hs). destruct (sigs_a z) as (more & E). exists s. split; [| left; auto]. apply (keysig_part e a m) with (more := more); auto using part_a, rrset_a. }
    destruct V as [V | V]; [auto |]. destruct (sigs_over a z 48) as [| s l] eqn:E.
    - destruct (ac_keys _ _ Ab z V) as (s & Hs). exists s. split; [| right; auto]. apply (keysig_part e b m) with (more := []); auto using part_b, rrset_b. rewrite app_nil_r. apply sigs_b. exact E.
    - apply A. assert (G : In s (sigs_over a z 48)) by (rewrite E; left; reflexivity). apply in_sigs_over in G as (G1 & <- & G2). apply (Ta s G1). exact G2.
  Qed.
  Lemma keysig_merged_a z s : Visited e a z -> KeySig e a z s -> KeySig e m z s.
  Proof. intros V H. destruct (sigs_a z) as (more & E). apply (keysig_part e a m) with (more := more); auto using part_a, rrset_a. Qed.
  Lemma used_merged s : Used e m s -> Used e a s \/ Used e b s.
  Proof.
    intros (z & V & [K | G]).
    - destruct (keysig_merged z V) as (s' & K' & H). rewrite (keysig_unique _ _ _ _ _ K K'). destruct H as [[A B] | [A B]]; [left | right]; exists z; auto.
    - apply good_merged in G as [[A B] | [A B]]; [left | right]; exists z; auto.
  Qed.
  Lemma used_merged_a s : Used e a s -> Used e m s.
  Proof.
    intros (z & V & H). exists z. split; [apply visited_merged; auto |]. destruct H as [K | G]; [left; apply keysig_merged_a; assumption | right].
    apply (good_part e a); auto using part_a, rrset_a.
  Qed.
  Lemma used_merged_b s : OneKeySig m -> Used e b s -> Used e m s.
  Proof.
    intros OS (z & V & H). assert (Vm : Visited e m z) by (apply visited_merged; auto). exists z. split; [exact Vm |].
    destruct H as [K | G]; [left | right; apply (good_part e b); auto using part_b, rrset_b].
    destruct (keysig_merged z Vm) as (s' & K' & _). replace s with s'; [exact K' |].
    destruct K as (pre & post & K & _), K' as (pre' & post' & K' & _).
    assert (I : In s (sigs_over b z 48)) by (rewrite K; apply in_or_app; right; left; reflexivity).
    assert (I' : In s' (sigs_over m z 48)) by (rewrite K'; apply in_or_app; right; left; reflexivity).
    apply in_sigs_over in I as (I1 & I2 & I3), I' as (J1 & J2 & J3). apply OS; auto; [apply part_b; exact I1 | congruence].
  Qed.
  Lemma proven_merged r : Proven e m r <-> Proven e a r \/ Proven e b r.
  Proof.
    split.
    - intros (z & s & V & G & T & I). apply good_merged in G as [[A B] | [A B]]; [left | right]; exists z, s; (split; [exact A |]); (split; [exact B |]); (split; [exact T |]).
      + eapply Permutation_in; [apply Permutation_sym, rrset_a, B | exact I].
      + eapply Permutation_in; [apply Permutation_sym, rrset_b, B | exact I].
    - intros [P | P]; [apply (proven_part e a) | apply (proven_part e b)]; auto using part_a, part_b, rrset_a, rrset_b.
  Qed.

  Lemma acceptable_merged : (forall s s', Used e a s \/ Used e b s -> Used e a s' \/ Used e b s' -> resolve_time (rs_inception s) < resolve_time (rs_expiration s')) -> Acceptable e m.
  Proof.
    intros W. constructor.
    - intros z V. destruct (keysig_merged z V) as (s & K & _). eauto.
    - intros z s V Z. assert (Hs := proj1 Z). apply in_merged in Hs as [Hs | Hs].
      + assert (Z' : ZoneSig a z s) by (destruct Z as (_ & A & B); repeat split; assumption).
        assert (V' : Visited e a z) by (destruct Z' as (_ & <- & B); apply (Ta s Hs); exact B).
        destruct (ac_sigs _ _ Aa z s V' Z') as [C1 [C2 | [C2 C3]]]; (split; [exact C1 |]); [left; apply (passed_part a) | right; split; [apply (good_part e a) | exact C3]]; auto using part_a, rrset_a.
      + assert (Z' : ZoneSig b z s) by (destruct Z as (_ & A & B); repeat split; assumption).
        assert (V' : Visited e b z) by (destruct Z' as (_ & <- & B); apply (Tb s Hs); exact B).
        destruct (ac_sigs _ _ Ab z s V' Z') as [C1 [C2 | [C2 C3]]]; (split; [exact C1 |]); [left; apply (passed_part b) | right; split; [apply (good_part e b) | exact C3]]; auto using part_b, rrset_b.
    - destruct (ac_some _ _ Aa) as (r & Hr). exists r. apply proven_merged. auto.
    - destruct (ac_root _ _ Aa) as (s & Hs & T). exists s. split; [apply (good_part e a); auto using part_a, rrset_a | exact T].
    - intros z s V G T. apply good_merged in G as [[V' G] | [V' G]]; [apply (ac_self _ _ Aa z s) | apply (ac_self _ _ Ab z s)]; assumption.
    - intros s s' H H'. apply used_merged in H, H'. apply W; assumption.
  Qed.
  Lemma denials_merged : Denials e a -> Denials e b -> Denials e m.
  Proof.
    intros Da Db z nc ty (s & pre & l & suf & V & G & R). apply good_merged in G as [[V' G] | [V' G]].
    - apply (denied_part e a); auto using part_a, rrset_a. apply Da. exists s, pre, l, suf. auto.
    - apply (denied_part e b); auto using part_b, rrset_b. apply Db. exists s, pre, l, suf. auto.
  Qed.
End Merge.

Section Verdict.
  Variables (e : env) (a b : list RR).
  Let m := merged a b.
  Hypothesis Ha : Forall Held a.
  Hypothesis Hb : Forall Held b.
  Hypothesis Na : NoDup a.
  Hypothesis Nb : NoDup b.
  Hypothesis Mab : NothingMore a b.
  Hypothesis Mba : NothingMore b a.
  Hypothesis HO : OneKey m.
  Hypothesis HE : forall s, In (RR_RRSig s) m -> ~ EmptyMaxLabels m s.
  Hypothesis Ta : Tidy e a.
  Hypothesis Tb : Tidy e b.
  Hypothesis HS : SortsNeeds e.
  Hypothesis HT : TwoParams e m.
  Hypothesis HZ : OneZone e m.

  Lemma merge_verdict fa va fb vb : verify_rr_stream e false fa a = Ok va -> verify_rr_stream e false fb b = Ok vb ->
    N.max (vr_valid_from va) (vr_valid_from vb) < N.min (vr_expires va) (vr_expires vb) ->
    exists fuel v, verify_rr_stream e false fuel m = Ok v /\
      (forall r, In r (vr_rrs v) <-> In r (vr_rrs va) \/ In r (vr_rrs vb)) /\
      (vr_valid_from va <= vr_valid_from v <= N.max (vr_valid_from va) (vr_valid_from vb) /\
       N.min (vr_expires va) (vr_expires vb) <= vr_expires v <= vr_expires va /\
       N.min (vr_max_cache_ttl va) (vr_max_cache_ttl vb) <= vr_max_cache_ttl v <= vr_max_cache_ttl va) /\
      (OneKeySig m -> vr_valid_from v = N.max (vr_valid_from va) (vr_valid_from vb) /\
        vr_expires v = N.min (vr_expires va) (vr_expires vb) /\ vr_max_cache_ttl v = N.min (vr_max_cache_ttl va) (vr_max_cache_ttl vb)).
  Proof.
    intros Va Vb W.
    assert (Ea : forall s, In (RR_RRSig s) a -> ~ EmptyMaxLabels a s).
    { intros s Hs G. apply (HE s); [apply part_a; exact Hs |]. apply (empty_part a); auto. apply rrset_a; assumption. }
    assert (Eb : forall s, In (RR_RRSig s) b -> ~ EmptyMaxLabels b s).
    { intros s Hs G. apply (HE s); [apply part_b; exact Hs |]. apply (empty_part b); auto. apply rrset_b; assumption. }
    pose proof (accepted_acceptable e a Ha Ea fa va Va) as Aa. pose proof (accepted_acceptable e b Hb Eb fb vb Vb) as Ab.
    assert (Za : OneZone e a).
    { intros z z' nc t t' H H'. apply (HZ z z' nc t t'); apply (needs_part e a); auto; solve [intros; apply part_a; assumption | intros; apply rrset_a; assumption]. }
    assert (Zb : OneZone e b).
    { intros z z' nc t t' H H'. apply (HZ z z' nc t t'); apply (needs_part e b); auto; solve [intros; apply part_b; assumption | intros; apply rrset_b; assumption]. }
    pose proof (accepted_denials e a Ha Ea fa va HS Za Va) as Da. pose proof (accepted_denials e b Hb Eb fb vb HS Zb Vb) as Db.
    assert (Hm : Forall Held m). { rewrite Forall_forall in *. intros r Hr. apply in_merged in Hr as [Hr | Hr]; auto. }
    destruct (accepted_result e a Ha fa va Va) as [Ra (La & La1 & La2 & La3 & La4)]. destruct (accepted_result e b Hb fb vb Vb) as [Rb (Lb & Lb1 & Lb2 & Lb3 & Lb4)].
    assert (In_a : forall s, Used e a s -> resolve_time (rs_inception s) <= vr_valid_from va /\ vr_expires va <= resolve_time (rs_expiration s) /\ vr_max_cache_ttl va <= rs_orig_ttl s).
    { intros s Hs. apply La1 in Hs. destruct La2 as [_ L2], La3 as [_ L3], La4 as [_ L4]. rewrite Forall_forall in L2, L3, L4.
      split; [apply (L2 _ (in_map (fun s => resolve_time (rs_inception s)) _ _ Hs)) |]. split; [apply (L3 _ (in_map (fun s => resolve_time (rs_expiration s)) _ _ Hs)) | apply (L4 _ (in_map rs_orig_ttl _ _ Hs))]. }
    assert (In_b : forall s, Used e b s -> resolve_time (rs_inception s) <= vr_valid_from vb /\ vr_expires vb <= resolve_time (rs_expiration s) /\ vr_max_cache_ttl vb <= rs_orig_ttl s).
    { intros s Hs. apply Lb1 in Hs. destruct Lb2 as [_ L2], Lb3 as [_ L3], Lb4 as [_ L4]. rewrite Forall_forall in L2, L3, L4.
      split; [apply (L2 _ (in_map (fun s => resolve_time (rs_inception s)) _ _ Hs)) |]. split; [apply (L3 _ (in_map (fun s => resolve_time (rs_expiration s)) _ _ Hs)) | apply (L4 _ (in_map rs_orig_ttl _ _ Hs))]. }
    assert (In_m : forall s, Used e a s \/ Used e b s -> resolve_time (rs_inception s) <= N.max (vr_valid_from va) (vr_valid_from vb) /\
      N.min (vr_expires va) (vr_expires vb) <= resolve_time (rs_expiration s) /\ N.min (vr_max_cache_ttl va) (vr_max_cache_ttl vb) <= rs_orig_ttl s).
    { intros s [H | H]; [apply In_a in H | apply In_b in H]; lia. }
    destruct (acceptable_accepted e m Hm HE HS HT) as (fuel & v & V).
    { apply acceptable_merged; auto. intros s s' H H'. apply In_m in H, H'. lia. }
    { apply denials_merged; auto. }
    exists fuel, v. split; [exact V |].
    destruct (accepted_result e m Hm fuel v V) as [R (L & L1 & L2 & L3 & L4)].
    assert (Ua : forall s, Used e a s -> In s L) by (intros s Hs; apply L1; apply used_merged_a; auto).
    assert (Ub : OneKeySig m -> forall s, Used e b s -> In s L) by (intros OS s Hs; apply L1; apply used_merged_b; auto).
    assert (Um : forall s, In s L -> Used e a s \/ Used e b s) by (intros s Hs; apply L1 in Hs; apply used_merged in Hs; auto).
    split.
    { intros r. rewrite R, Ra, Rb. unfold m. rewrite (proven_merged e a b) by auto. tauto. }
    destruct L2 as [I2 F2], L3 as [I3 F3], L4 as [I4 F4]. rewrite Forall_forall in F2, F3, F4.
    apply in_map_iff in I2 as (s2 & E2 & I2), I3 as (s3 & E3 & I3), I4 as (s4 & E4 & I4). apply Um, In_m in I2, I3, I4.
    destruct La2 as [A2 _], La3 as [A3 _], La4 as [A4 _], Lb2 as [B2 _], Lb3 as [B3 _], Lb4 as [B4 _].
    apply in_map_iff in A2 as (p2 & P2 & A2), A3 as (p3 & P3 & A3), A4 as (p4 & P4 & A4), B2 as (q2 & Q2 & B2), B3 as (q3 & Q3 & B3), B4 as (q4 & Q4 & B4).
    apply La1, Ua in A2, A3, A4. apply Lb1 in B2, B3, B4.
    apply (in_map (fun s => resolve_time (rs_inception s))), F2 in A2. apply (in_map (fun s => resolve_time (rs_expiration s))), F3 in A3. apply (in_map rs_orig_ttl), F4 in A4.
    split; [lia |]. intros OS. apply (Ub OS) in B2, B3, B4.
    apply (in_map (fun s => resolve_time (rs_inception s))), F2 in B2. apply (in_map (fun s => resolve_time (rs_expiration s))), F3 in B3. apply (in_map rs_orig_ttl), F4 in B4.
    lia.
  Qed.
End Verdict.
