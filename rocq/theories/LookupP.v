(** Proofs for Prop_Lookup. *)
From Verif Require Import Base BaseP NameM NameSpec NameP WireM WireP RRM SerM ValM RecSpec RecP2 SignedP ValSpec ValP ResolveSpec ResolveP QueryM QuerySpec AcceptSpec LiveSpec LiveP2 LiveP3 LookupSpec.
From Coq Require Import Lia Arith.
Local Open Scope N_scope.

Section Chains.
  Variable answers : list rset.
  Notation step := (Step answers). Notation steps := (Steps answers).
  Lemma steps_prefix k : forall n m j, steps k n m -> (j < k)%nat -> exists x t, steps j n x /\ step x t.
  Proof.
    induction k as [|k IH]; intros n m j H L; [lia|]. inversion H as [|? ? x ? H1 H2]; subst. destruct (Nat.eq_dec j k) as [->|NE]; [eauto|].
    apply (IH _ _ _ H1). lia.
  Qed.
  Lemma steps_unique n m : Chain answers n m -> forall k x y, steps k n x -> steps k n y -> x = y.
  Proof.
    intros C. induction k as [|k IH]; intros x y H1 H2; inversion H1 as [|? ? x1 ? P1 S1]; subst; inversion H2 as [|? ? x2 ? P2 S2]; subst; [reflexivity|].
    rewrite (IH _ _ P2 P1) in S2. apply (ch_one _ _ _ C k x1); assumption.
  Qed.
  Lemma steps_end n m K : Chain answers n m -> steps K n m -> forall k x, steps k n x -> (k <= K)%nat.
  Proof.
    intros C HK k x H. destruct (le_gt_dec k K) as [L|G]; [exact L|]. destruct (steps_prefix _ _ _ K H G) as (y & t & P & S).
    rewrite (steps_unique _ _ C _ _ _ P HK) in S. destruct (ch_end _ _ _ C _ S).
  Qed.

  Variable rrs : list RR.
  Hypothesis Hty : forall a r, In a answers -> In r (an_recs a) -> rr_name r = an_name a /\ rr_ty r = an_ty a.
  Hypothesis Hrrs : forall r, In r rrs <-> exists a, In a answers /\ In r (an_recs a) /\ an_ty a <> 47 /\ an_ty a <> 50.
  Hypothesis Hwf : Forall (typed_rr proper_name) rrs.
  Hypothesis Hroot : NoRootDname answers.
  Lemma in_has r : In r rrs -> HasRec answers r.
  Proof. intros I. apply Hrrs in I as (a & Ia & Ir & _). exists a. auto. Qed.
  Lemma has_in r : HasRec answers r -> rr_ty r <> 47 -> rr_ty r <> 50 -> In r rrs.
  Proof. intros (a & Ia & Ir) N1 N2. apply Hrrs. exists a. destruct (Hty a r Ia Ir) as [_ E]. rewrite <- E. auto. Qed.
  Lemma alias_step x t : agree_at rrs redirect_text redirect_labels x -> Alias redirect_text rrs x t -> step x t.
  Proof.
    intros Ag A. inversion A as [n' c F|n' d u C F R Ac]; subst.
    - apply first_of_in in F as [I (c' & E & N)]. injection E as <-. subst x. constructor. apply in_has. exact I.
    - apply first_of_in in F as [I _]. apply (Step_dname _ _ d); [|apply in_has; exact I|apply Ag; assumption].
      intros c Hc E. apply C. exists (RR_CName c). split; [apply has_in; [exact Hc|discriminate|discriminate]|]. exists c. auto.
  Qed.
  Lemma step_not_terminal x t : agree_at rrs redirect_text redirect_labels x -> step x t -> ~ Terminal redirect_text rrs x.
  Proof.
    intros Ag S T. inversion S as [c Hc|n' d u C Hd R]; subst.
    - apply has_in in Hc; [|discriminate ..]. destruct (T _ Hc) as [X _]. apply X. exists c. auto.
    - apply has_in in Hd; [|discriminate ..]. destruct (T _ Hd) as [_ X]. apply X. exists d, t. split; [reflexivity|]. apply Ag; assumption.
  Qed.

  Section From.
    Variables n m : list N.
    Hypothesis Hn : proper_name n.
    Hypothesis HC : Chain answers n m.
    Hypothesis HA : Aligned answers n.
    Lemma agree k x : steps k n x -> proper_name x -> agree_at rrs redirect_text redirect_labels x.
    Proof.
      intros S P. apply aligned_agree; [exact Hwf| |exact P|].
      - intros d I. apply Hroot, in_has, I.
      - intros d p I E. eapply HA; [exact S|apply in_has; exact I|exact E].
    Qed.
    Lemma aliases_steps k : forall y x j, Aliases redirect_text rrs k y x -> steps j n y -> proper_name y -> steps (j + k) n x /\ proper_name x.
    Proof.
      induction k as [|k IH]; intros y x j A S P; inversion A as [|? ? z ? A1 A2]; subst; [rewrite Nat.add_0_r; auto|].
      pose proof (agree _ _ S P) as Ag. rewrite <- Nat.add_succ_comm. eapply IH; [exact A2| |].
      - econstructor; [exact S|]. apply alias_step; assumption.
      - eapply aligned_alias; [exact Hwf|exact P|exact Ag|exact A1].
    Qed.
    Lemma chain_resolves : exists k, resolve_name rrs k n = Ok (at_name rrs m).
    Proof.
      assert (PV : forall x, proper_name x -> name_try_from x = Some x) by (intros x; apply proper_name_valid).
      assert (Hh : Forall Held rrs). { eapply Forall_impl; [|exact Hwf]. intros r. unfold Held. destruct r; cbn [typed_rr]; intuition. }
      assert (Vn : name_try_from n = Some n). { apply proper_name_valid. exact Hn. }
      destruct (ch_path _ _ _ HC) as [K HK].
      destruct (resolve_outcome rrs Hh (S K) n Vn) as [[l E]|E].
      2: { apply (resolve_loop rrs Hh) in E; [|exact Vn]. destruct E as [x E]. destruct (aliases_steps _ _ _ 0%nat E (Steps_0 _ _) Hn) as [S _].
           apply (steps_end _ _ _ HC HK) in S. lia. }
      exists (S K). rewrite E. f_equal. apply (resolve_spec rrs Hh) in E; [|exact Vn]. destruct E as (k & _ & x & A & D).
      destruct (aliases_steps _ _ _ 0%nat A (Steps_0 _ _) Hn) as [S P]. cbn [Nat.add] in S. pose proof (agree _ _ S P) as Ag.
      destruct D as [[T ->]|[(C & d & t & F & R & NA) ->]].
      - destruct (Nat.eq_dec k K) as [->|NE]; [rewrite (steps_unique _ _ HC _ _ _ S HK); reflexivity|]. exfalso.
        pose proof (steps_end _ _ _ HC HK _ _ S) as L. destruct (steps_prefix _ _ _ k HK) as (y & t & S' & St); [lia|].
        rewrite (steps_unique _ _ HC _ _ _ S' S) in St. exact (step_not_terminal _ _ Ag St T).
      - exfalso. apply NA. eapply (ch_names _ _ _ HC); [exact S|]. apply first_of_in in F as [I _].
        apply (Step_dname _ _ d); [|apply in_has; exact I|apply Ag; assumption].
        intros c Hc E. apply C. exists (RR_CName c). split; [apply has_in; [exact Hc|discriminate|discriminate]|]. exists c. auto.
    Qed.
  End From.
End Chains.

Lemma lookup_works e dbg zones answers n ty data resp m : proper_name n -> ty < 65536 -> ty <> 43 /\ ty <> 48 -> SortsNeeds e ->
  WellSigned e zones answers (FirstVouched e) -> Serves zones answers n ty data -> Answers data dbg n ty resp ->
  (forall m t rt, Asked data n ty m t -> In rt (data m t) -> wf_rr (fst rt)) -> (length zones <= 5)%nat ->
  Chain answers n m -> Aligned answers n -> NoRootDname answers -> Finds e dbg zones answers n ty resp m.
Proof.
  intros Pn Lt Nt SN WS SV AN W L C A R. assert (Vn : name_try_from n = Some n) by (apply proper_name_valid; exact Pn).
  destruct (live_verified e dbg zones answers n ty data resp Vn Lt Nt SN WS SV AN W L) as (qs & sent & P & F & H). exists qs, sent. split; [exact P|]. split; [exact F|].
  intros segs rest E. destruct (H segs rest E) as (proof & ttl & B & H'). exists proof, ttl. split; [exact B|]. intros dbg'. destruct (H' dbg') as (inp & fuel & v & E1 & E2 & Rv).
  assert (Hty : forall a r, In a answers -> In r (an_recs a) -> rr_name r = an_name a /\ rr_ty r = an_ty a).
  { intros a r Ia Ir. destruct (ws_answers _ _ _ _ WS a Ia) as (_ & X & _). rewrite Forall_forall in X. auto. }
  assert (Hwf : Forall (typed_rr proper_name) (vr_rrs v)).
  { apply Forall_forall. intros r I. apply Rv in I as (a & Ia & Ir & _). assert (X : In r (map fst (data n ty))).
    { destruct SV as [SV _]. apply (adds_in _ _ _ SV). apply in_flat_map. exists a. split; [exact Ia|]. apply in_app_iff. auto. }
    apply in_map_iff in X as (rt & <- & X). apply (W n ty rt (Asked_first _ _ _) X). }
  destruct (chain_resolves answers (vr_rrs v) Hty Rv Hwf R n m Pn C A) as [k Ek]. exists inp, fuel, v, k, (at_name (vr_rrs v) m).
  split; [exact E1|]. split; [exact E2|]. split; [exact Ek|]. intros r. unfold at_name. rewrite filter_In. split.
  - intros [I X]. apply Rv in I as (a & Ia & Ir & N1 & N2). exists a. destruct (Hty a r Ia Ir) as [Nm _]. destruct (list_eq_dec N.eq_dec (rr_name r) m) as [Y|]; [|discriminate X].
    repeat split; try assumption. congruence.
  - intros (a & Ia & Ir & Nm & N1 & N2). split; [apply Rv; exists a; auto|]. destruct (Hty a r Ia Ir) as [Nm' _].
    destruct (list_eq_dec N.eq_dec (rr_name r) m) as [_|X]; [reflexivity|]. exfalso. apply X. congruence.
Qed.
