(** Proofs for C79: from the exact description of the verdict (C60). *)
From Verif Require Import Base BaseP NameM WireM RRM Base32M ValM NameSpec NameP RecSpec CodecSpec CodecP OrdP ValSpec ValP ValP2 ValP3 ValP4 ValP5 OrdRR OrderSpec OrderP DupP AcceptSpec AcceptP AcceptP2 AcceptP3 AcceptP4 AcceptP5 MergeSpec MergeP TrimSpec.
From Coq Require Import Permutation Arith.
Local Open Scope N_scope.

Lemma signed_each s l : (exists msg, SignedData s l msg) <-> Forall (fun r => exists p, SignedRR s r p) l.
Proof.
  split.
  - intros (msg & pieces & F & _). induction F as [| r p l ps H F IH]; constructor; eauto.
  - intros F. assert (X : exists ps, Forall2 (SignedRR s) l ps).
    { induction F as [| r l (p & H) F (ps & IH)]; [exists []; constructor | exists (p :: ps); constructor; assumption]. }
    destruct X as (ps & X). exists (rrsig_rdata s ++ concat ps), ps. auto.
Qed.
Lemma filter_filter {A} (f g : A -> bool) l : filter f (filter g l) = filter (fun x => g x && f x) l.
Proof. induction l as [| x l IH]; [reflexivity |]. cbn [filter]. destruct (g x); cbn [filter andb]; rewrite IH; reflexivity. Qed.

Section Trim.
  Variables (e : env) (inp : list RR) (D : list N -> N -> bool).
  Hypothesis D48 : forall n, D n 48 = false.
  Let x := trimmed D inp.

  Lemma in_trim r : In r x <-> In r inp /\ kept D r = true.
  Proof. apply filter_In. Qed.
  Lemma rrset_trim n t : t <> 46 -> D n t = false -> rrset x n t = rrset inp n t.
  Proof.
    intros T E. unfold rrset, x, trimmed. rewrite filter_filter. apply filter_ext. intros r. destruct (list_eq_dec N.eq_dec (rr_name r) n) as [<- | NE]; [| apply andb_false_r].
    destruct (N.eqb_spec (rr_ty r) t) as [<- | NE]; [| apply andb_false_r]. rewrite andb_true_r. destruct r; cbn [kept rr_ty] in *; try (rewrite E; reflexivity). contradiction.
  Qed.
  Lemma rrset_sub n t r : In r (rrset x n t) -> In r (rrset inp n t).
  Proof. rewrite !in_rrset, in_trim. tauto. Qed.
  Lemma keys_trim z : keys_at x z = keys_at inp z.
  Proof.
    unfold keys_at, x, trimmed. induction inp as [| r l IH]; [reflexivity |]. cbn [filter]. destruct (kept D r) eqn:K; cbn [flat_map]; rewrite IH; [reflexivity |].
    destruct r; try reflexivity. cbn [kept rr_ty] in K. rewrite D48 in K. discriminate.
  Qed.
  Lemma sigs_trim z : sigs_over x z 48 = sigs_over inp z 48.
  Proof.
    unfold sigs_over, x, trimmed. induction inp as [| r l IH]; [reflexivity |]. cbn [filter]. destruct (kept D r) eqn:K; cbn [flat_map]; rewrite IH; [reflexivity |].
    destruct r as [| | | | | | | | | s | |]; try reflexivity. cbn [kept] in K. destruct (list_eq_dec N.eq_dec (rs_name s) z); [| reflexivity].
    destruct (N.eqb_spec (rs_ty s) 48) as [E | E]; [| reflexivity]. rewrite E, D48 in K. discriminate.
  Qed.
  Lemma delegations_trim z : z = [46] \/ D z 43 = false -> delegations x z = delegations inp z.
  Proof.
    intros H. unfold delegations. destruct (list_eq_dec N.eq_dec z [46]); [reflexivity |]. destruct H as [H | H]; [contradiction |]. rewrite rrset_trim; [reflexivity | discriminate | exact H].
  Qed.
  Lemma zonesig_trim z s : ZoneSig x z s <-> ZoneSig inp z s /\ D (rs_name s) (rs_ty s) = false.
  Proof. unfold ZoneSig. rewrite in_trim. cbn [kept]. rewrite negb_true_iff. tauto. Qed.
  Lemma good_kept z s : D (rs_name s) (rs_ty s) = false -> rs_ty s <> 46 -> (GoodSig e x z s <-> GoodSig e inp z s).
  Proof. intros H T. unfold GoodSig. rewrite zonesig_trim, keys_trim, rrset_trim by assumption. tauto. Qed.
  Lemma keysig_kept z s : z = [46] \/ D z 43 = false -> (KeySig e x z s <-> KeySig e inp z s).
  Proof. intros H. unfold KeySig. rewrite sigs_trim, keys_trim, delegations_trim, rrset_trim by (auto; discriminate). reflexivity. Qed.
  Lemma passed_kept z s : D (rs_name s) (rs_ty s) = false -> PassedSig inp z s -> PassedSig x z s.
  Proof.
    intros H [Z (T & U & k & msg & C & S)]. split; [apply zonesig_trim; auto |]. rewrite keys_trim.
    split; [rewrite Forall_forall in *; intros r Hr; apply T, rrset_sub; exact Hr |]. split; [exact U |]. exists k.
    assert (X : exists m', SignedData s (sort_by rr_cmp (rrset x (rs_name s) (rs_ty s))) m'); [| destruct X as (m' & X); eauto].
    apply signed_each. assert (Y : Forall (fun r => exists p, SignedRR s r p) (sort_by rr_cmp (rrset inp (rs_name s) (rs_ty s)))) by (apply signed_each; eauto).
    rewrite Forall_forall in *. intros r Hr. apply Y. apply (Permutation_in _ (sort_perm _ _)). apply rrset_sub. apply (Permutation_in _ (Permutation_sym (sort_perm _ _))) in Hr. exact Hr.
  Qed.

  Hypothesis A : Acceptable e inp.
  Lemma good_sub z s : Visited e inp z -> GoodSig e x z s -> GoodSig e inp z s /\ D (rs_name s) (rs_ty s) = false /\ rs_ty s <> 46.
  Proof.
    intros V G. assert (Z := proj1 G). apply zonesig_trim in Z as [Z H]. destruct (ac_sigs _ _ A z s V Z) as [_ [P | [G' (F & _)]]]; [| auto].
    exfalso. destruct P as [_ (_ & P & _)], G as [_ G]. apply P. eapply valid_supported; eauto.
  Qed.
  Lemma visited_sub z : Visited e x z -> Visited e inp z /\ (z = [46] \/ D z 43 = false).
  Proof.
    induction 1 as [| z s V [IH _] G T]; [split; [constructor | left; reflexivity] |]. apply good_sub in G as (G & H & _); [| exact IH].
    split; [apply (Vi_child _ _ z); assumption |]. right. rewrite <- T. exact H.
  Qed.
  Lemma used_sub s : Used e x s -> Used e inp s.
  Proof.
    intros (z & V & H). destruct (visited_sub z V) as [V' R]. exists z. split; [exact V' |]. destruct H as [K | G]; [left; apply keysig_kept; assumption | right; apply (good_sub z s V' G)].
  Qed.
  Lemma proven_sub r : Proven e x r -> Proven e inp r /\ D (rr_name r) (rr_ty r) = false.
  Proof.
    intros (z & s & V & G & T & I). destruct (visited_sub z V) as [V' _]. destruct (good_sub z s V' G) as (G' & H & _). apply rrset_sub in I. split.
    - exists z, s. auto.
    - apply in_rrset in I as (_ & -> & ->). exact H.
  Qed.
  Lemma needs_sub z nc ty : NeedsDenial e x z nc ty -> NeedsDenial e inp z nc ty.
  Proof.
    intros (s & pre & l & suf & V & G & R). destruct (visited_sub z V) as [V' _]. exists s, pre, l, suf. split; [exact V' |]. split; [apply (good_sub z s V' G) | exact R].
  Qed.
  Lemma acceptable_trim : (exists r, Proven e x r) -> (exists s, GoodSig e x [46] s /\ rs_ty s = 43) -> Acceptable e x.
  Proof.
    intros P R. constructor.
    - intros z V. destruct (visited_sub z V) as [V' H]. destruct (ac_keys _ _ A z V') as (s & K). exists s. apply keysig_kept; assumption.
    - intros z s V Z. destruct (visited_sub z V) as [V' _]. apply zonesig_trim in Z as [Z H]. destruct (ac_sigs _ _ A z s V' Z) as [E [Q | [Q F]]]; (split; [exact E |]).
      + left. apply passed_kept; assumption.
      + right. split; [| exact F]. apply good_kept; [exact H | apply F | exact Q].
    - exact P.
    - exact R.
    - intros z s V G T. destruct (visited_sub z V) as [V' _]. apply (ac_self _ _ A z s V'); [apply (good_sub z s V' G) | exact T].
    - intros a b Ha Hb. apply (ac_window _ _ A); apply used_sub; assumption.
  Qed.
  Lemma params_trim : TwoParams e inp -> TwoParams e x.
  Proof.
    intros T z nc ty Hn. destruct (T z nc ty (needs_sub _ _ _ Hn)) as (p & q & H). exists p, q. intros n pre Hp. apply H. apply (proven_sub _ Hp).
  Qed.
  Lemma empty_trim : (forall s, In (RR_RRSig s) inp -> ~ EmptyMaxLabels inp s) -> forall s, In (RR_RRSig s) x -> ~ EmptyMaxLabels x s.
  Proof.
    intros H s Hs (E & R). apply in_trim in Hs as [Hs K]. cbn [kept] in K. apply negb_true_iff in K. apply (H s Hs). split; [| exact R].
    rewrite rrset_trim in E; [exact E | apply R | exact K].
  Qed.

  (** Without DS RRsets among those left out. *)
  Section Leaves.
    Hypothesis D43 : forall n, D n 43 = false.
    Lemma visited_trim z : Visited e inp z -> Visited e x z.
    Proof.
      induction 1 as [| z s V IH G T]; [constructor |]. apply (Vi_child _ _ z); [exact IH | | exact T].
      apply good_kept; [rewrite T; apply D43 | rewrite T; discriminate | exact G].
    Qed.
    Lemma proven_trim r : Proven e inp r -> D (rr_name r) (rr_ty r) = false -> Proven e x r.
    Proof.
      intros (z & s & V & G & T & I) H. exists z, s. pose proof I as I'. apply in_rrset in I' as (_ & E1 & E2). rewrite E1, E2 in H.
      assert (F : rs_ty s <> 46).
      { destruct (ac_sigs _ _ A z s V (proj1 G)) as [_ [P | [_ F]]]; [| apply F]. exfalso. destruct P as [_ (_ & P & _)], G as [_ G]. apply P. eapply valid_supported; eauto. }
      split; [apply visited_trim; exact V |]. split; [apply good_kept; assumption |]. split; [exact T |]. rewrite rrset_trim; assumption.
    Qed.
    Lemma root_trim : exists s, GoodSig e x [46] s /\ rs_ty s = 43.
    Proof.
      destruct (ac_root _ _ A) as (s & G & T). exists s. split; [| exact T]. apply good_kept; [rewrite T; apply D43 | rewrite T; discriminate | exact G].
    Qed.
    Lemma denials_trim : (forall n, D n 47 = false) -> (forall n, D n 50 = false) -> Denials e inp -> Denials e x.
    Proof.
      intros D47 D50 H z nc ty Hn. destruct (H z nc ty (needs_sub _ _ _ Hn)) as [(n & p & P & R) | (n & p & P & R)]; [left | right]; exists n, p; (split; [apply proven_trim; [exact P |] | exact R]); cbn [rr_ty]; auto.
    Qed.
  End Leaves.
End Trim.

Section Verdict.
  Variables (e : env) (inp : list RR) (D : list N -> N -> bool).
  Hypothesis D48 : forall n, D n 48 = false.
  Hypothesis Hh : Forall Held inp.
  Hypothesis HE : forall s, In (RR_RRSig s) inp -> ~ EmptyMaxLabels inp s.
  Hypothesis HS : SortsNeeds e.
  Hypothesis HT : TwoParams e inp.
  Variables (fuel : nat) (v : verified).
  Hypothesis HV : verify_rr_stream e false fuel inp = Ok v.

  Lemma held_trim : Forall Held (trimmed D inp).
  Proof. rewrite Forall_forall in *. intros r Hr. apply in_trim in Hr as [Hr _]. auto. Qed.
  Lemma trim_narrow fuel' v' : verify_rr_stream e false fuel' (trimmed D inp) = Ok v' ->
    (forall r, In r (vr_rrs v') -> In r (vr_rrs v) /\ D (rr_name r) (rr_ty r) = false) /\
    vr_valid_from v' <= vr_valid_from v /\ vr_expires v <= vr_expires v' /\ vr_max_cache_ttl v <= vr_max_cache_ttl v'.
  Proof.
    intros V'. pose proof (accepted_acceptable e inp Hh HE fuel v HV) as A. destruct (accepted_result e inp Hh fuel v HV) as [R (L & L1 & [_ L2] & [_ L3] & [_ L4])].
    destruct (accepted_result e _ held_trim fuel' v' V') as [R' (L' & L1' & [M2 _] & [M3 _] & [M4 _])]. split.
    { intros r Hr. apply R' in Hr as (P & T). apply (proven_sub e inp D A) in P as [P H]. split; [apply R; auto | exact H]. }
    rewrite Forall_forall in L2, L3, L4. apply in_map_iff in M2 as (a & <- & Ia), M3 as (b & <- & Ib), M4 as (c & <- & Ic).
    apply L1', (used_sub e inp D D48 A), L1 in Ia, Ib, Ic.
    split; [apply (L2 _ (in_map (fun s => resolve_time (rs_inception s)) _ _ Ia)) |].
    split; [apply (L3 _ (in_map (fun s => resolve_time (rs_expiration s)) _ _ Ib)) | apply (L4 _ (in_map rs_orig_ttl _ _ Ic))].
  Qed.
  Lemma trim_any : (exists r, Proven e (trimmed D inp) r) -> (exists s, GoodSig e (trimmed D inp) [46] s /\ rs_ty s = 43) -> Denials e (trimmed D inp) ->
    exists fuel' v', verify_rr_stream e false fuel' (trimmed D inp) = Ok v'.
  Proof.
    intros P R Dn. pose proof (accepted_acceptable e inp Hh HE fuel v HV) as A.
    apply acceptable_accepted; auto using held_trim, empty_trim, params_trim, acceptable_trim.
  Qed.
  Lemma trim_leaves : OneZone e inp -> (forall n, D n 43 = false) -> (forall n, D n 47 = false) -> (forall n, D n 50 = false) ->
    (exists r, In r (vr_rrs v) /\ D (rr_name r) (rr_ty r) = false) ->
    exists fuel' v', verify_rr_stream e false fuel' (trimmed D inp) = Ok v' /\
      (forall r, In r (vr_rrs v') <-> In r (vr_rrs v) /\ D (rr_name r) (rr_ty r) = false) /\
      vr_valid_from v' <= vr_valid_from v /\ vr_expires v <= vr_expires v' /\ vr_max_cache_ttl v <= vr_max_cache_ttl v'.
  Proof.
    intros HZ D43 D47 D50 (r0 & I0 & H0). pose proof (accepted_acceptable e inp Hh HE fuel v HV) as A. destruct (accepted_result e inp Hh fuel v HV) as [R _].
    pose proof (accepted_denials e inp Hh HE fuel v HS HZ HV) as Dn.
    destruct trim_any as (fuel' & v' & V').
    - exists r0. apply R in I0 as (I0 & _). apply proven_trim; assumption.
    - apply root_trim; assumption.
    - apply denials_trim; assumption.
    - exists fuel', v'. split; [exact V' |]. destruct (trim_narrow fuel' v' V') as [N W]. split; [| exact W]. intros r. split; [apply N |].
      intros [I H]. destruct (accepted_result e _ held_trim fuel' v' V') as [R' _]. apply R in I as (I & T). apply R'. split; [| exact T]. apply proven_trim; assumption.
  Qed.
End Verdict.
