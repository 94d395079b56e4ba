(** Answers from wildcards. *)
From Verif Require Import Base BaseP NameM WireM RRM SerM ValM NameSpec NameP WireSpec WireP RecSpec RecP CodecSpec ValSpec ValP ValP2 ValP3 AcceptSpec AcceptP AcceptP2 AcceptP4 AcceptP5 OrderP OrdRR SignedP SecSpec SecP SecP2 WildSpec.
From Coq Require Import Permutation.
Local Open Scope N_scope.

Lemma app_inv_length {A} (a : list A) : forall b x y, a ++ x = b ++ y -> length a = length b -> a = b /\ x = y.
Proof. induction a as [| c a IH]; intros [| d b] x y E L; try discriminate L; [auto |]. injection E as -> E. injection L as L. destruct (IH b x y E L) as [-> ->]. auto. Qed.

(** The NSEC records of the input whose signatures verify under a key of a zone have no empty labels in
    their next names. *)
Definition NextRead (e : env) (KeyOf : list N -> dnskey -> Prop) (inp : list RR) : Prop :=
  forall z k s msg, KeyOf z k -> CryptoOk e s k msg -> In (RR_RRSig s) inp -> rs_ty s = 47 -> rrset inp (rs_name s) 47 <> [] ->
    SignedData s (sort_by rr_cmp (rrset inp (rs_name s) 47)) msg -> Forall clear (rrset inp (rs_name s) 47).
Lemma next_read e KeyOf inp : ProperNext inp -> NextRead e KeyOf inp.
Proof.
  intros H z k s msg _ _ _ _ _ _. rewrite Forall_forall. intros r Hr. apply in_rrset in Hr as (R1 & _ & R2). split; [rewrite R2; discriminate |]. destruct r; try exact I. apply H. exact R1.
Qed.

Section Wild.
  Variables (e : env) (KeyOf : list N -> dnskey -> Prop) (Honest : list N -> Prop) (Signed : list N -> rrsig -> list RR -> Prop).
  Hypothesis W : World e KeyOf Honest Signed.
  Hypothesis HO : forall d, Honest d.
  Hypothesis TP : forall z s rs, Signed z s rs -> rs_ty s = 50 -> ~ is_wildcard (rs_name s).
  Hypothesis HS : SortsNeeds e.
  Variables (inp : list RR) (fuel : nat) (v : verified).
  Hypothesis Hheld : Forall Held inp.
  Hypothesis Hfits : Forall fits_rr inp.
  Hypothesis Hnext : NextRead e KeyOf inp.
  Hypothesis HV : verify_rr_stream e false fuel inp = Ok v.

  Lemma proven_denial st d : complete e inp st -> Proven e inp d -> rr_ty d = 47 \/ rr_ty d = 50 ->
    In d inp /\ exists z s rs p, Signed z s rs /\ rs_name s = p ++ z /\ In d rs.
  Proof.
    intros C (z & s & Hz & G & T43 & HI) HT. destruct (good_fine e inp Hheld st C z s Hz G) as [(p & EP) T46].
    destruct (chain e KeyOf Honest Signed W inp Hheld Hfits st C z Hz (fun d p _ _ => HO d)) as (_ & PN & HK).
    assert (HI' := HI). apply in_rrset in HI' as (ID & RN & RT). split; [exact ID |].
    assert (NE : rrset inp (rs_name s) (rs_ty s) <> []) by (intros Z; rewrite Z in HI; destruct HI).
    pose proof G as [(GI & _ & _) GV].
    assert (U : Forall clear (rrset inp (rs_name s) (rs_ty s))).
    { destruct (N.eq_dec (rs_ty s) 47) as [T47 | T47]; [| apply clear_set; assumption].
      pose proof GV as (_ & k & msg & (pr & po & K1 & _) & SD & CO). rewrite T47 in SD, NE |- *. apply (Hnext z k s msg); auto. apply HK. rewrite K1. apply in_or_app. right. left. reflexivity. }
    destruct (valid_published e KeyOf Honest Signed W inp Hheld Hfits z _ s (rs_name s) (rs_ty s) (HO z) (fun k Hk _ => HK k Hk) GV GI eq_refl U NE) as (s0 & rs & S0 & T0 & _ & _ & _ & _ & _ & P & _ & NW).
    assert (ZN : rs_name s = rs_name s0).
    { apply NW. destruct HT as [HT | HT]; [right; congruence | left]. eapply TP; [exact S0 | congruence]. }
    exists z, s0, rs, p. split; [exact S0 |]. split; [congruence |]. rewrite <- ZN, map_rename_self in P. eapply Permutation_in; eauto.
  Qed.

  Lemma good_signed z s : GoodSig e inp z s -> SignedByZone e inp (fun _ => True) z s.
  Proof.
    intros [(GI & GN & _) (FT & k & msg & (pr & po & K1 & _ & _ & K2) & SD & CO)]. split; [exact GI |]. split; [exact I |]. split; [exact GN |].
    exists k. split; [apply in_keys; rewrite K1; apply in_or_app; right; left; reflexivity |].
    split; [exact K2 |]. split; [exact FT |]. exists (sort_by rr_cmp (rrset inp (rs_name s) (rs_ty s))), msg. split; [apply sort_perm | auto].
  Qed.
  Lemma visited_reached z : Visited e inp z -> Reached e inp z.
  Proof. induction 1 as [| z s Hz IH G T]; [constructor |]. apply (Re_child _ _ z); auto. apply good_signed. exact G. Qed.

  Lemma weak_denial n nc ty : nsec_weak n nc ty -> Between e (RR_NSec n) nc \/ (OwnRecord e (RR_NSec n) nc).
  Proof. intros [[E _] | [[E | L] L2]]; [right; exact E | right; exact E | left; split; assumption]. Qed.
  Lemma weak_denial3 n nc ty : nsec3_weak e n nc ty -> Between e (RR_NSec3 n) nc \/ (OwnRecord e (RR_NSec3 n) nc).
  Proof.
    intros (h & nh & R & D). pose proof R as (_ & _ & _ & H & E & _). assert (O : h = nh -> OwnRecord e (RR_NSec3 n) nc) by (intros ->; cbn [OwnRecord]; unfold hash_for; rewrite <- E; exact H).
    destruct D as [[D _] | [[D | D] D2]]; [right; auto | right; auto | left]. exists h, nh. auto.
  Qed.

  Lemma answer_origin r : In r (vr_rrs v) -> PublishedAt Signed r \/ exists nc z' d, Synthesised e Signed inp r nc z' d.
  Proof.
    intros Hr. destruct (accepted_result e inp Hheld fuel v HV) as (AR & _). pose proof HV as HV'.
    apply verify_inv in HV' as (st & HZ & _ & _ & HL & _). pose proof (loop_complete _ _ _ _ HZ) as C.
    apply AR in Hr as ((z & s & Hz & G & T43 & HI) & T47 & T50).
    destruct (good_fine e inp Hheld st C z s Hz G) as [(p & EP) T46]. assert (HI' := HI). apply in_rrset in HI' as (_ & RN & RT).
    destruct (chain e KeyOf Honest Signed W inp Hheld Hfits st C z Hz (fun d p _ _ => HO d)) as (_ & PN & HK).
    assert (NE : rrset inp (rs_name s) (rs_ty s) <> []) by (intros Z; rewrite Z in HI; destruct HI).
    assert (U : Forall clear (rrset inp (rs_name s) (rs_ty s))) by (apply clear_set; rewrite <- RT; [congruence | auto]).
    pose proof G as [(GI & GN & _) GV].
    destruct (valid_published e KeyOf Honest Signed W inp Hheld Hfits z _ s (rs_name s) (rs_ty s) (HO z) (fun k Hk _ => HK k Hk) GV GI eq_refl U NE) as (s0 & rs & S0 & T0 & TL & TT & TX & TI & TK & P & CV & NW).
    assert (IR : In (rename (rs_name s0) r) rs) by (eapply Permutation_in; [exact P |]; apply in_map; exact HI).
    rewrite <- RN in CV, NW. destruct CV as [CV | (pre & suf & NP & L & E)].
    { left. exists z, s0, rs. split; [exact S0 |]. split; [congruence |]. split; [congruence |]. rewrite <- CV, rename_self in IR. exact IR. }
    destruct (exists_last NP) as (pre' & l & ->). rewrite <- app_assoc in L. cbn [app] in L.
    assert (LS : N.of_nat (length suf) = rs_labels s).
    { rewrite <- TL. destruct (wo_rrset _ _ _ _ W z s0 rs S0) as (_ & (ls & LP & LN & LL) & _). rewrite LL. assert (ls = [42] :: suf) as ->; [| reflexivity].
      apply (labelsof_inj (rs_name s0)); [rewrite LN; apply proper_labelsof; eapply Forall_impl; try apply (proj1 LP); cbn; tauto |].
      split; [exact E |]. split; [| discriminate]. constructor; [split; [cbn; lia |]; constructor; [split; [lia | split; discriminate] | constructor] |].
      destruct L as (_ & L & _). apply Forall_app in L as [_ L]. inversion L; assumption. }
    destruct (wildcard_discharged e false fuel inp v Hheld HS HV r z s) as [(ls & L1 & L2) | (nc & st' & NC & HZ' & DD & _)].
    { apply AR. split; [exists z, s; auto | auto]. }
    { apply visited_reached. exact Hz. }
    { apply good_signed. exact G. }
    { exact HI. }
    { exfalso. rewrite (labelsof_inj _ _ _ L1 L), app_length in L2. cbn [length] in L2. lia. }
    rewrite HZ in HZ'. injection HZ' as <-.
    assert (nc = dotted (l :: suf)) as ->.
    { destruct NC as (pre2 & l2 & suf2 & N1 & N2 & ->). pose proof (labelsof_inj _ _ _ N1 L) as N3.
      assert (LL : length suf2 = length suf) by lia. assert (N4 : length pre2 = length pre') by (apply (f_equal (@length _)) in N3; rewrite !app_length in N3; cbn [length] in N3; lia).
      apply app_inv_length in N3 as [_ N3]; [| exact N4]. rewrite N3. reflexivity. }
    assert (P0 : forall d, In d (v_res st) <-> Proven e inp d) by (intros d; rewrite (co_res _ _ _ C), proven_iff; [reflexivity | exact Hheld]).
    right. exists (dotted (l :: suf)).
    assert (FIN : forall d, In d (v_res st) -> rr_ty d = 47 \/ rr_ty d = 50 -> (Between e d (dotted (l :: suf)) \/ OwnRecord e d (dotted (l :: suf))) ->
      exists z' d, Synthesised e Signed inp r (dotted (l :: suf)) z' d).
    { intros d Hd HT HB. apply P0 in Hd. destruct (proven_denial st d C Hd HT) as (DI & z' & s' & rs' & q & D1 & D2 & D3). exists z', d, z, s0, rs, pre', l, suf, s', rs'.
      do 6 (split; [first [assumption | congruence | reflexivity] |]). split; [exists s; split; [exact GI |]; split; [congruence |]; split; congruence |].
      split; [exact DI |]. split; [exact D1 |]. split; [exact D3 |]. split; [exists q; exact D2 | exact HB]. }
    destruct DD as [(n & D1 & D2) | (n & D1 & D2)].
    - apply (FIN _ D1); [left; reflexivity | eapply weak_denial; exact D2].
    - apply (FIN _ D1); [right; reflexivity | eapply weak_denial3; exact D2].
  Qed.
End Wild.

Lemma wild_origin_read e KeyOf Honest Signed fuel inp v r : World e KeyOf Honest Signed -> (forall d, Honest d) -> Truthful e Signed -> SortsNeeds e ->
  Forall Held inp -> Forall fits_rr inp -> NextRead e KeyOf inp -> verify_rr_stream e false fuel inp = Ok v -> In r (vr_rrs v) ->
  PublishedAt Signed r \/ exists nc z' d, Synthesised e Signed inp r nc z' d /\
    ((forall s rs, Signed z' s rs -> rs_ty s <> 50 -> rs_name s <> nc) \/ OwnRecord e d nc).
Proof.
  intros W HO T HS H1 H2 H3 HV Hr. destruct (answer_origin e KeyOf Honest Signed W HO (tr_plain _ _ T) HS inp fuel v H1 H2 H3 HV r Hr) as [H | (nc & z' & d & S)]; [left; exact H | right].
  exists nc, z', d. split; [exact S |]. destruct S as (z & s & rs & pre & l & suf & s' & rs' & _ & _ & _ & _ & _ & _ & _ & _ & S1 & S2 & _ & [B | O]); [left | right; exact O].
  intros s1 rs1 S3 N50 E. rewrite <- E in B. exact (tr_gap _ _ T z' s' rs' d s1 rs1 S1 S2 S3 N50 B).
Qed.
Lemma wild_origin e KeyOf Honest Signed fuel inp v r : World e KeyOf Honest Signed -> (forall d, Honest d) -> Truthful e Signed -> SortsNeeds e ->
  Forall Held inp -> Forall fits_rr inp -> ProperNext inp -> verify_rr_stream e false fuel inp = Ok v -> In r (vr_rrs v) ->
  PublishedAt Signed r \/ exists nc z' d, Synthesised e Signed inp r nc z' d /\
    ((forall s rs, Signed z' s rs -> rs_ty s <> 50 -> rs_name s <> nc) \/ OwnRecord e d nc).
Proof. intros W HO T HS H1 H2 H3. eapply wild_origin_read; eauto. apply next_read. exact H3. Qed.
(** No wildcards of that type. *)
Lemma no_wild_exact e KeyOf Honest Signed fuel inp v r : World e KeyOf Honest Signed -> Forall Held inp -> Forall fits_rr inp ->
  verify_rr_stream e false fuel inp = Ok v -> In r (vr_rrs v) -> (forall d p, rr_name r = p ++ d -> proper_name d -> Honest d) ->
  (forall z s rs, Signed z s rs -> rs_ty s = rr_ty r -> ~ is_wildcard (rs_name s)) -> PublishedAt Signed r.
Proof.
  intros W H1 H2 HV Hr HH NW. destruct (only_published e KeyOf Honest Signed fuel inp v r W H1 H2 HV Hr HH) as (z & p & _ & _ & s & rs & S & _ & T & C & A & _).
  exists z, s, rs. assert (E : rs_name s = rr_name r). { destruct C as [C | (pre & suf & _ & _ & C)]; [auto | exfalso]. apply (NW z s rs S T). rewrite C. destruct suf; eexists; reflexivity. }
  split; [exact S |]. split; [exact E |]. split; [exact T |]. apply A. exists r. rewrite E, rename_self. auto.
Qed.
(** The name itself exists. *)
Lemma wild_exact e KeyOf Honest Signed fuel inp v r z s rs : World e KeyOf Honest Signed -> (forall d, Honest d) -> Truthful e Signed -> SortsNeeds e ->
  Forall Held inp -> Forall fits_rr inp -> ProperNext inp -> verify_rr_stream e false fuel inp = Ok v -> In r (vr_rrs v) ->
  Signed z s rs -> rs_name s = rr_name r -> rs_ty s = rr_ty r -> OneLabel inp (rr_name r) (rr_ty r) ->
  (forall d, In d inp -> ~ OwnRecord e d (rr_name r)) ->
  (forall d z' s' rs', In d inp -> Signed z' s' rs' -> In d rs' -> Between e d (rr_name r) -> z' = z) ->
  PublishedAt Signed r.
Proof.
  intros W HO T HS H1 H2 H3 HV Hr HSg HN HT OL NO NB. destruct (answer_origin e KeyOf Honest Signed W HO (tr_plain _ _ T) HS inp fuel v H1 H2 (next_read _ _ _ H3) HV r Hr) as [H | (nc & z' & d & S)]; [exact H | exfalso].
  destruct S as (z0 & s0 & rs0 & pre & l & suf & s' & rs' & _ & _ & _ & _ & L & -> & (s1 & A1 & A2 & A3 & A4) & DI & S1 & S2 & _ & B).
  assert (pre = []) as ->. { specialize (OL s1 _ A1 A2 A3 L). rewrite app_length, A4 in OL. cbn [length] in OL. destruct pre; [reflexivity | cbn [length] in OL; lia]. }
  destruct L as (L & _). cbn [app] in L. rewrite <- L in B. destruct B as [B | B]; [| exact (NO d DI B)].
  assert (z' = z) as -> by (eapply NB; eauto). rewrite <- HN in B.
  assert (N50 : rs_ty s <> 50). { rewrite HT. destruct (accepted_result e inp H1 fuel v HV) as (AR & _). apply AR in Hr. tauto. }
  exact (tr_gap _ _ T z s' rs' d s rs S1 S2 HSg N50 B).
Qed.
