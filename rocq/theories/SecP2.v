(** Only what was published is returned. *)
From Verif Require Import Base BaseP NameM WireM RRM SerM ValM NameSpec NameP WireSpec WireP RecSpec RecP CodecSpec ValSpec ValP ValP2 ValP3 AcceptSpec AcceptP AcceptP2 AcceptP4 AcceptP5 OrderP OrdRR SignedP SecSpec SecP.
From Coq Require Import Permutation.
Local Open Scope N_scope.

Lemma delegated_list e a b k : Permutation a b -> DelegatedKey e a k -> DelegatedKey e b k.
Proof.
  intros P (d & H1 & H2 & H3 & H4). exists d. split; [eapply Permutation_in; eauto |]. split; [exact H2 |]. split; [exact H3 |].
  destruct H4 as [H4 | (H4 & H5 & H6)]; [left; exact H4 | right]. split; [exact H4 |]. split; [exact H5 |]. eapply Permutation_Forall; eauto.
Qed.
Lemma map_rename_self n t inp : map (rename n) (rrset inp n t) = rrset inp n t.
Proof. rewrite <- (map_id (rrset inp n t)) at 2. apply map_ext_in. intros r Hr. apply in_rrset in Hr as (_ & <- & _). apply rename_self. Qed.

Section Sec.
  Variables (e : env) (KeyOf : list N -> dnskey -> Prop) (Honest : list N -> Prop) (Signed : list N -> rrsig -> list RR -> Prop).
  Hypothesis W : World e KeyOf Honest Signed.
  Variable inp : list RR.
  Hypothesis Hheld : Forall Held inp.
  Hypothesis Hfits : Forall fits_rr inp.

  Definition under (n : list N) : Prop := forall d p, n = p ++ d -> proper_name d -> Honest d.
  Lemma under_suffix p z : under (p ++ z) -> under z.
  Proof. intros H d q ->. apply (H d (p ++ q)). apply app_assoc. Qed.

  Lemma valid_published z (P : dnskey -> Prop) s n ty : Honest z -> (forall k, In k (keys_at inp z) -> P k -> KeyOf z k) ->
    ValidSig e P (keys_at inp z) s (rrset inp n ty) -> In (RR_RRSig s) inp -> rs_ty s = ty -> Forall clear (rrset inp n ty) -> rrset inp n ty <> [] ->
    exists s0 rs, Signed z s0 rs /\ rs_ty s0 = ty /\ rs_labels s0 = rs_labels s /\ rs_orig_ttl s0 = rs_orig_ttl s /\ rs_expiration s0 = rs_expiration s /\ rs_inception s0 = rs_inception s /\
      rs_key_name s0 = rs_key_name s /\ Permutation (map (rename (rs_name s0)) (rrset inp n ty)) rs /\ Covers (rs_name s0) n /\ (~ is_wildcard (rs_name s0) \/ ty = 47 -> n = rs_name s0).
  Proof.
    intros Hz HK (_ & k & msg & (pre & post & K1 & _ & K2 & _) & SD & CO) HI <- U NE.
    assert (KO : KeyOf z k) by (apply HK; [rewrite K1; apply in_or_app; right; left; reflexivity | exact K2]).
    assert (SP : Permutation (rrset inp n (rs_ty s)) (sort_by rr_cmp (rrset inp n (rs_ty s)))) by apply sort_perm.
    assert (SUB : forall r, In r (sort_by rr_cmp (rrset inp n (rs_ty s))) -> In r inp /\ rr_name r = n /\ rr_ty r = rs_ty s).
    { intros r Hr. apply (Permutation_in r (Permutation_sym SP)) in Hr. apply in_rrset in Hr. exact Hr. }
    rewrite Forall_forall in Hheld, Hfits.
    assert (NES : sort_by rr_cmp (rrset inp n (rs_ty s)) <> []) by (intros E; rewrite E in SP; apply Permutation_sym, Permutation_nil in SP; contradiction).
    assert (AK : Asked msg).
    { exists s, n, (sort_by rr_cmp (rrset inp n (rs_ty s))). split; [apply Hheld; exact HI |]. split; [exact NES |]. split; [exact SD |].
      rewrite Forall_forall in U |- *. intros r Hr. destruct (SUB r Hr) as (A & B). split; [auto |]. split; [auto |]. split; [| exact B].
      apply U. eapply Permutation_in; [apply Permutation_sym; exact SP | exact Hr]. }
    destruct (wo_unforged _ _ _ _ W z k s msg Hz KO CO AK) as (s0 & rs & S0 & PD). destruct (wo_rrset _ _ _ _ W z s0 rs S0) as (_ & RL & RN & RS).
    destruct (msg_inj s (sort_by rr_cmp (rrset inp n (rs_ty s))) s0 rs msg n) as (T & LB & O & X & I & K & R & C & NW); auto.
    - rewrite Forall_forall. intros r Hr. apply Hheld. apply SUB. exact Hr.
    - rewrite Forall_forall. intros r Hr. apply Hfits. apply SUB. exact Hr.
    - rewrite Forall_forall in U |- *. intros r Hr. apply U. eapply Permutation_in; [apply Permutation_sym; exact SP | exact Hr].
    - rewrite Forall_forall. intros r Hr. apply SUB. exact Hr.
    - exists s0, rs. do 7 (split; [assumption |]). split; [rewrite R; apply Permutation_map; exact SP |]. auto.
  Qed.

  Lemma clear_set n ty : ty <> 46 -> ty <> 47 -> Forall clear (rrset inp n ty).
  Proof. intros N6 N7. rewrite Forall_forall. intros r Hr. apply in_rrset in Hr as (_ & _ & <-). split; [exact N6 |]. destruct r; try exact I. exfalso. apply N7. reflexivity. Qed.
  Lemma clear43 n : Forall clear (rrset inp n 43). Proof. apply clear_set; discriminate. Qed.
  Lemma clear48 n : Forall clear (rrset inp n 48). Proof. apply clear_set; discriminate. Qed.
  Lemma in_keys z k : In k (keys_at inp z) <-> In (RR_DnsKey k) (rrset inp z 48).
  Proof.
    unfold keys_at. rewrite in_flat_map, in_rrset. split.
    - intros (r & Hr & Hk). destruct r as [a|a|a|a|a|a|a|x|a|a|a|a]; try destruct Hk. destruct (list_eq_dec N.eq_dec (dk_name x) z) as [E | E]; [| destruct Hk]. destruct Hk as [-> | []]. auto.
    - intros (H1 & H2 & _). exists (RR_DnsKey k). split; [exact H1 |]. cbn [rr_name] in H2. destruct (list_eq_dec N.eq_dec (dk_name k) z); [left; reflexivity | contradiction].
  Qed.
  Lemma key_held z k : In k (keys_at inp z) -> Held (RR_DnsKey k) /\ dk_name k = z.
  Proof. intros H. apply in_keys, in_rrset in H as (H & N & _). rewrite Forall_forall in Hheld. auto. Qed.

  Lemma keys_ok z : Honest z -> (forall k, In k (keys_at inp z) -> DelegatedKey e (delegations inp z) k -> KeyOf z k) ->
    (exists s, KeySig e inp z s) -> forall k, In k (keys_at inp z) -> KeyOf z k.
  Proof.
    intros Hz HD (s & pre & post & E & _ & V) k Hk.
    assert (SI : In (RR_RRSig s) inp /\ rs_ty s = 48).
    { assert (I : In s (sigs_over inp z 48)) by (rewrite E; apply in_or_app; right; left; reflexivity). unfold sigs_over in I. apply in_flat_map in I as (r & Hr & I).
      destruct r as [a|a|a|a|a|a|a|a|a|x|a|a]; try destruct I. destruct (list_eq_dec N.eq_dec (rs_name x) z); [| destruct I]. destruct (rs_ty x =? 48) eqn:ET; [| destruct I].
      destruct I as [-> | []]. apply N.eqb_eq in ET. auto. }
    assert (NE : rrset inp z 48 <> []) by (intros G; apply in_keys in Hk; rewrite G in Hk; destruct Hk).
    destruct (valid_published z _ s z 48 Hz HD V (proj1 SI) (proj2 SI) (clear48 z) NE) as (s0 & rs & S0 & T & _ & _ & _ & _ & _ & P & _ & NW).
    assert (ZN : z = rs_name s0) by (apply NW; left; eapply (wo_plain _ _ _ _ W); eauto). rewrite <- ZN, map_rename_self in P.
    destruct (key_held z k Hk) as [_ KN]. rewrite <- KN. apply (wo_keys _ _ _ _ W z s0 rs k S0 T). eapply Permutation_in; [exact P |]. apply in_keys. exact Hk.
  Qed.

  Variable st : vstate.
  Hypothesis C : complete e inp st.
  Lemma visited_keysig z : Visited e inp z -> exists s, KeySig e inp z s.
  Proof. intros Hz. apply reach_visited in Hz; [| exact Hheld]. destruct (proj1 (co_done _ _ _ C z Hz)) as (s & Hs). exists s. apply keysig_spec; assumption. Qed.
  Lemma good_fine z s : Visited e inp z -> GoodSig e inp z s -> (exists p, rs_name s = p ++ z) /\ rs_ty s <> 46.
  Proof.
    intros Hz G. apply reach_visited in Hz; [| exact Hheld]. apply good_ok in G as [G1 G2]; [| exact Hheld]. destruct (co_done _ _ _ C z Hz) as [_ D]. destruct (D s G1) as [D1 D2].
    apply ends_with_spec in D1. split; [exact D1 |]. destruct D2 as [D2 | (_ & D2 & _)]; [| exact D2]. unfold unsup, ok in *. congruence.
  Qed.

  Lemma chain z : Visited e inp z -> under z -> Honest z /\ proper_name z /\ forall k, In k (keys_at inp z) -> KeyOf z k.
  Proof.
    assert (ROOT : under [46] -> (Honest [46] /\ proper_name [46] /\ forall k, In k (keys_at inp [46]) -> KeyOf [46] k)).
    { intros HU. assert (HO : Honest [46]) by (apply (HU [46] []); [reflexivity | exact root_proper]). split; [exact HO |]. split; [exact root_proper |].
      apply keys_ok; [exact HO | | apply visited_keysig; constructor]. intros k Hk D. destruct (key_held _ _ Hk) as [A B]. apply (wo_root _ _ _ _ W); auto. }
    induction 1 as [| z s Hz IH G T]; intros HU; [auto |].
    destruct (list_eq_dec N.eq_dec (rs_name s) [46]) as [E | NR]; [rewrite E in *; auto |].
    destruct (good_fine z s Hz G) as [(p & EP) _]. assert (HUz : under z) by (rewrite EP in HU; apply under_suffix in HU; exact HU). destruct (IH HUz) as (HZ & _ & HK).
    assert (VC : Visited e inp (rs_name s)) by (apply (Vi_child _ _ z); assumption). destruct (visited_keysig _ VC) as (sk & KS).
    assert (DE : delegations inp (rs_name s) = flat_map ds_of (rrset inp (rs_name s) 43)) by (unfold delegations; destruct (list_eq_dec N.eq_dec (rs_name s) [46]); [contradiction | reflexivity]).
    assert (NE : rrset inp (rs_name s) 43 <> []).
    { intros Z. destruct KS as (pre & post & _ & _ & _ & k & msg & (pr & po & _ & _ & (d & Hd & _) & _) & _). rewrite DE, Z in Hd. destruct Hd. }
    destruct G as [(GI & _ & _) GV]. rewrite T in GV.
    destruct (valid_published z _ s (rs_name s) 43 HZ (fun k Hk _ => HK k Hk) GV GI T (clear43 (rs_name s)) NE) as (s0 & rs & S0 & T0 & _ & _ & _ & _ & _ & P & _ & NW).
    assert (ZN : rs_name s = rs_name s0) by (apply NW; left; eapply (wo_plain _ _ _ _ W); eauto). rewrite <- ZN, map_rename_self in P.
    assert (PN : proper_name (rs_name s)).
    { destruct (wo_rrset _ _ _ _ W z s0 rs S0) as (_ & (ls & P1 & P2 & _) & _). exists ls. split; [exact P1 |]. split; [congruence |]. apply valid_lower.
      rewrite Forall_forall in Hheld. apply Hheld in GI. apply GI. }
    assert (HO : Honest (rs_name s)) by (apply (HU (rs_name s) []); [reflexivity | exact PN]). split; [exact HO |]. split; [exact PN |].
    apply keys_ok; [exact HO | | exists sk; exact KS]. intros k Hk D. destruct (key_held _ _ Hk) as [A B]. rewrite ZN. apply (wo_ds _ _ _ _ W z s0 rs k S0 T0 A); [congruence |].
    rewrite DE in D. eapply delegated_list; [| exact D]. apply perm_flat_map. exact P.
  Qed.
End Sec.

Lemma only_published e KeyOf Honest Signed fuel inp v r : World e KeyOf Honest Signed -> Forall Held inp -> Forall fits_rr inp ->
  verify_rr_stream e false fuel inp = Ok v -> In r (vr_rrs v) -> (forall d p, rr_name r = p ++ d -> proper_name d -> Honest d) ->
  exists z p, rr_name r = p ++ z /\ proper_name z /\ Published Signed z v r.
Proof.
  intros W Hh Hf HV Hr HU. destruct (accepted_result e inp Hh fuel v HV) as (AR & L & AL & AI & AE & AT).
  apply verify_inv in HV as (st & HZ & _). pose proof (loop_complete _ _ _ _ HZ) as C.
  apply AR in Hr as ((z & s & Hz & G & T43 & HI) & T47 & T50).
  destruct (good_fine e inp Hh st C z s Hz G) as [(p & EP) T46]. assert (HI' := HI). apply in_rrset in HI' as (_ & RN & RT). rewrite RN in HU.
  assert (HUz : under Honest z) by (rewrite EP in HU; apply under_suffix in HU; exact HU).
  destruct (chain e KeyOf Honest Signed W inp Hh Hf st C z Hz HUz) as (HO & PN & HK).
  assert (NE : rrset inp (rs_name s) (rs_ty s) <> []) by (intros Z; rewrite Z in HI; destruct HI).
  assert (U : Forall clear (rrset inp (rs_name s) (rs_ty s))) by (apply clear_set; rewrite <- RT; [congruence | auto]).
  pose proof G as [(GI & GN & _) GV].
  destruct (valid_published e KeyOf Honest Signed W inp Hh Hf z _ s (rs_name s) (rs_ty s) HO (fun k Hk _ => HK k Hk) GV GI eq_refl U NE) as (s0 & rs & S0 & T0 & _ & TT & TX & TI & TK & P & CV & _).
  exists z, p. split; [congruence |]. split; [exact PN |].
  assert (US : In s L) by (apply AL; exists z; auto).
  exists s0, rs. split; [exact S0 |]. split; [congruence |]. split; [congruence |]. split; [rewrite RN; exact CV |]. split; [| split; [| split]].
  - intros x. rewrite RN, RT. split.
    + intros Hx. apply (Permutation_in x (Permutation_sym P)), in_map_iff in Hx as (r' & <- & Hr'). exists r'. pose proof Hr' as Hr2. apply in_rrset in Hr2 as (_ & A & B). split; [| auto].
      apply AR. split; [exists z, s; auto |]. rewrite B, <- RT. auto.
    + intros (r' & A1 & A2 & A3 & ->). eapply Permutation_in; [exact P |]. apply in_map. apply in_rrset. split; [| auto].
      apply AR in A1 as ((z' & s' & _ & _ & _ & A1) & _). apply in_rrset in A1. apply A1.
  - rewrite TI. destruct AI as [_ AI]. rewrite ?Forall_forall in AI. apply AI. apply in_map_iff. exists s. auto.
  - rewrite TX. destruct AE as [_ AE]. rewrite ?Forall_forall in AE. apply AE. apply in_map_iff. exists s. auto.
  - rewrite TT. destruct AT as [_ AT]. rewrite ?Forall_forall in AT. apply AT. apply in_map_iff. exists s. auto.
Qed.
