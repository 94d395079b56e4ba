(** From the RRsets which the zones have signed, given on the wire, to the answer for a name. *)
From Verif Require Import Base BaseP NameM WireM RRM SerM ValM NameSpec NameP WireSpec WireP RecSpec RecP CodecSpec ValSpec ValP ValP2 ValP3 HeldP DbgP DohM DohSpec JsonSpec SignedP SecSpec SecP SecP2 ResolveSpec AnswerSpec AnswerP WildSpec WildP SeenSpec SeenP SeenP2 PubSpec PubP EndSpec.
Local Open Scope N_scope.

Lemma f2_in {A B} (R : A -> B -> Prop) l m x : Forall2 R l m -> In x l -> exists y, In y m /\ R x y.
Proof. induction 1 as [| a b l m H F IH]; [intros [] |]. intros [E | I]; [subst; exists b; split; [left; reflexivity | exact H] |]. destruct (IH I) as (y & I1 & I2). exists y. split; [right; exact I1 | exact I2]. Qed.
Lemma f2_impl {A B} (R S : A -> B -> Prop) l m : (forall x y, R x y -> S x y) -> Forall2 R l m -> Forall2 S l m.
Proof. intros H. induction 1; constructor; auto. Qed.
Lemma canon_star p n : CanonName (owner_octets p) n -> is_wildcard n -> hd [] (pb_owner p) = [42].
Proof.
  intros C1 (q & EW). destruct C1 as (ls & P & EB & EN & _). unfold owner_octets in EB. rewrite !wire_name_labels in EB. apply wl_whole, app_inj_tail in EB as [<- _]. rewrite EN in EW.
  destruct (pb_owner p) as [| l ls]; [discriminate EW |]. cbn [hd]. apply lower_star. destruct P as [P _]. inversion P as [| ? ? [P1 [_ P2]] _]; subst. cbn [map dotted] in EW. unfold dots in EW. cbn [map concat] in EW.
  destruct (lower l) as [| c m]; [congruence |]. cbn [app] in EW. injection EW as -> EW. destruct m as [| d m]; [reflexivity |]. cbn [app] in EW. injection EW as -> _. inversion P2 as [| ? ? _ P3]; subst. inversion P3 as [| ? ? (_ & _ & P4) _]; subst. congruence.
Qed.
Lemma canon_proper b n : CanonName b n -> proper_name n.
Proof. intros (ls & P & _ & EN & L). exists ls. auto. Qed.

Section End_.
  Variable Signs : list N -> pub -> Prop.
  Lemma text_rdata p s rs r ty n : TextForm p s rs -> rs_ty s = ty -> rr_name r = n -> In (rename (rs_name s) r) rs -> exists d, In d (pb_data p) /\ RData CanonName false ty n r d.
  Proof.
    intros (_ & _ & _ & T & _ & _ & _ & _ & _ & _ & F) <- <- I. destruct (f2_in _ _ _ _ F I) as (d & D1 & D2). exists d. split; [exact D1 |].
    rewrite <- T in D2. apply (rdata_rename _ _ _ _ (rr_name r)) in D2. rewrite rename_rename, rename_self in D2. exact D2.
  Qed.
  Lemma issued_wire r : Issued (text_signed Signs) r -> WireIssued Signs r.
  Proof.
    intros (z & s & rs & (p & HS & TF) & T & C & I). destruct (text_rdata p s rs r (rr_ty r) (rr_name r) TF T eq_refl I) as (d & D1 & D2).
    exists z, p, (rs_name s), d. destruct TF as (C1 & _ & _ & T' & _). split; [exact HS |]. split; [congruence |]. auto.
  Qed.
  Lemma leads_wire redirect n m : Leads redirect (text_signed Signs) n m -> WireLeads Signs redirect n m.
  Proof.
    induction 1 as [n | n m e A _ IH]; [constructor |]. apply (WL_on _ _ n m e); [| exact IH]. inversion A as [c I | n' d t I R AC]; subst; apply issued_wire in I.
    - apply WA_cname. destruct c; exact I.
    - apply (WA_dname _ _ n (dn_name d) (dn_delegation d) m); [destruct d; exact I | exact R | exact AC].
  Qed.
  Lemma published_at_wire r : PublishedAt (text_signed Signs) r -> WireIssuedAt Signs r.
  Proof.
    intros (z & s & rs & (p & HS & TF) & N & T & I). assert (I' : In (rename (rs_name s) r) rs) by (rewrite N, rename_self; exact I).
    destruct (text_rdata p s rs r (rr_ty r) (rr_name r) TF T eq_refl I') as (d & D1 & D2). exists z, p, d. destruct TF as (C1 & _ & _ & T' & _). rewrite N in C1. split; [exact HS |]. split; [congruence |]. auto.
  Qed.
  Lemma denial_wire z s rs d : text_signed Signs z s rs -> In d rs -> WireDenial Signs z d /\ rr_name d = rs_name s.
  Proof.
    intros (p & HS & TF) I. destruct TF as (C1 & _ & _ & T' & _ & _ & _ & _ & _ & _ & F). destruct (f2_in _ _ _ _ F I) as (x & X1 & X2).
    destruct (rdata_owner _ _ _ _ X2) as (_ & _ & RN). split; [| exact RN]. exists p, x. rewrite RN. auto.
  Qed.
  Lemma truthful_text e : (forall z p, Signs z p -> LegalPub p) -> WireTruthful Signs e -> Truthful e (text_signed Signs).
  Proof.
    intros LG W. constructor.
    - intros z s rs d s' rs' S1 I1 (p & HS & C1 & _ & _ & T & _) N50. destruct (denial_wire _ _ _ _ S1 I1) as [D _]. apply (wt_gap _ _ W z d p (rs_name s') D HS); [congruence | exact C1].
    - intros z s rs d s' rs' S1 I1 (p & HS & C1 & _ & _ & T & _) N50 O. destruct (denial_wire _ _ _ _ S1 I1) as [D _]. rewrite T. apply (wt_types _ _ W z d p (rs_name s') D HS); [congruence | exact C1 | exact O].
    - intros z s rs (p & HS & C1 & _ & _ & T & _) T50 (q & E). apply (wt_plain _ _ W z p HS); [congruence |].
      apply (canon_star p (rs_name s)); [exact C1 | exists q; exact E].
  Qed.
End End_.

Lemma wire_answers e KeyOf Honest Signs dbg fuel proof inp v k n l r : WireWorld e KeyOf Honest Signs -> is_bytes proof ->
  parse_rr_stream dbg proof = Ok inp -> verify_rr_stream e dbg fuel inp = Ok v -> name_try_from n = Some n ->
  (forall m, WireLeads Signs redirect_text n m -> InGoodHands Honest m) -> resolve_name (vr_rrs v) k n = Ok l -> In r l ->
  WireLeads Signs redirect_text n (rr_name r) /\ (exists z p, rr_name r = p ++ z /\ proper_name z /\ WirePublished Signs z v r) /\
  (forall r', In r' (vr_rrs v) -> rr_name r' = rr_name r -> In r' l).
Proof.
  intros W B P V N H R I.
  destruct (answers_published e KeyOf Honest (text_signed Signs) dbg fuel proof inp v k n l r (world_of _ _ _ _ W) B P V N (fun m L => H m (leads_wire _ _ _ _ L)) R I) as (A1 & (z & p & A2 & A3 & A4) & A5).
  split; [apply leads_wire; exact A1 |]. split; [| exact A5]. exists z, p. split; [exact A2 |]. split; [exact A3 | apply published_wire; exact A4].
Qed.
Lemma wire_dns e KeyOf Honest Signs dbg fuel proof inp v k n l r : WireWorld e KeyOf Honest Signs -> is_bytes proof ->
  parse_rr_stream dbg proof = Ok inp -> verify_rr_stream e dbg fuel inp = Ok v -> proper_name n ->
  (forall m, WireLeads Signs redirect_labels n m -> InGoodHands Honest m) ->
  (forall o d, WireIssued Signs (RR_DName {| dn_name := o; dn_delegation := d |}) -> d <> [46]) ->
  (forall m o d p, WireLeads Signs redirect_labels n m -> WireIssued Signs (RR_DName {| dn_name := o; dn_delegation := d |}) -> m = p ++ o -> exists q, p = q ++ [46]) ->
  resolve_name (vr_rrs v) k n = Ok l -> In r l ->
  WireLeads Signs redirect_labels n (rr_name r) /\ (exists z p, rr_name r = p ++ z /\ proper_name z /\ WirePublished Signs z v r).
Proof.
  intros W B P V N H HR HB R I.
  destruct (answers_dns e KeyOf Honest (text_signed Signs) dbg fuel proof inp v k n l r (world_of _ _ _ _ W) B P V N (fun m L => H m (leads_wire _ _ _ _ L))) as (A1 & (z & p & A2 & A3 & A4)); auto.
  - intros c IC. apply issued_wire in IC as (z & p & o & d & _ & _ & _ & _ & _ & RD). inversion RD as [| | | o' b t x C | | | | | | | |]; subst. cbn [cn_canonical]. exact (canon_proper _ _ C).
  - intros c IC. apply issued_wire in IC. split; [| apply (HR (dn_name c)); destruct c; exact IC]. destruct IC as (z & p & o & d & _ & _ & _ & _ & _ & RD).
    inversion RD as [| | | | o' b t x C | | | | | | |]; subst. cbn [dn_delegation]. exact (canon_proper _ _ C).
  - intros m d p L ID E. apply (HB m (dn_name d) (dn_delegation d) p); [apply leads_wire; exact L | apply issued_wire in ID; destruct d; exact ID | exact E].
  - split; [apply leads_wire; exact A1 |]. exists z, p. split; [exact A2 |]. split; [exact A3 | apply published_wire; exact A4].
Qed.
Lemma wire_seen e KeyOf Honest Signs dbg fuel reparse trap fetch endpoint k domain ty s urls j V :
  WireWorld e KeyOf Honest Signs -> Reformats reparse -> (forall i u b, fetch i u = Body b -> is_bytes b) -> (11 <= k)%nat ->
  lookup_doh e dbg fuel reparse trap fetch endpoint k domain (TyText ty) = (JText s, urls) -> Json s j -> DescribesResult V j -> Forall Held (vr_rrs V) ->
  exists v, vr_valid_from V = vr_valid_from v /\ vr_expires V = vr_expires v /\ vr_max_cache_ttl V = vr_max_cache_ttl v /\
    Forall2 (fun r0 r => Spelled r0 r /\ ((forall raw, Str raw (rr_name r) -> InGoodHands Honest raw) -> exists z p, rr_name r0 = p ++ z /\ proper_name z /\ WirePublished Signs z v r0)) (vr_rrs v) (vr_rrs V).
Proof.
  intros W RF FB K L J D HV. destruct (seen_published e KeyOf Honest (text_signed Signs) dbg fuel reparse trap fetch endpoint k domain ty s urls j V (world_of _ _ _ _ W) RF FB K L J D HV) as (v & E1 & E2 & E3 & F).
  exists v. do 3 (split; [assumption |]). eapply f2_impl; [| exact F]. intros r0 r [S P]. split; [exact S |]. intros H. destruct (P H) as (z & p & A & B & C). exists z, p. split; [exact A |]. split; [exact B | apply published_wire; exact C].
Qed.

(** Answers from wildcards. *)
Lemma wire_next e KeyOf Honest Signs inp : WireWorld e KeyOf Honest Signs -> (forall d, Honest d) -> WireOrdinary Signs -> Forall Held inp -> Forall fits_rr inp -> NextRead e KeyOf inp.
Proof.
  intros W HO O HH HF z k s msg HK CO I T NE SD. destruct (ww_unforged _ _ _ _ W z k s msg (HO z) HK CO) as (p & HS & E). pose proof (ww_legal _ _ _ _ W z p HS) as LP.
  assert (SP : Permutation.Permutation (rrset inp (rs_name s) 47) (sort_by rr_cmp (rrset inp (rs_name s) 47))) by apply sort_perm.
  eapply Permutation.Permutation_Forall; [apply Permutation.Permutation_sym; exact SP |]. rewrite Forall_forall in HH, HF.
  apply (nsec_text s (rs_name s) (sort_by rr_cmp (rrset inp (rs_name s) 47)) msg p); auto.
  - intros Z. rewrite Z in SP. apply Permutation.Permutation_sym, Permutation.Permutation_nil in SP. contradiction.
  - rewrite Forall_forall. intros r Hr. apply (Permutation.Permutation_in r (Permutation.Permutation_sym SP)), in_rrset in Hr as (A & B & C). rewrite T. auto.
  - apply O with (1 := HS).
Qed.
Lemma wire_origin e KeyOf Honest Signs dbg fuel proof inp v r : WireWorld e KeyOf Honest Signs -> (forall d, Honest d) -> WireTruthful Signs e -> SortsNeeds e ->
  is_bytes proof -> parse_rr_stream dbg proof = Ok inp -> ProperNext inp \/ WireOrdinary Signs -> verify_rr_stream e dbg fuel inp = Ok v -> In r (vr_rrs v) ->
  WireIssuedAt Signs r \/ exists nc z' d, WireSynthesised Signs e inp r nc z' d /\
    ((forall p, Signs z' p -> pb_type p <> 50 -> ~ CanonName (owner_octets p) nc) \/ OwnRecord e d nc).
Proof.
  intros W HO T HS B P PN V I. apply verify_release in V. pose proof (truthful_text Signs e (ww_legal _ _ _ _ W) T) as TT.
  pose proof (parsed_held _ _ _ B P) as PH. pose proof (parsed_fits _ _ _ B P) as PF.
  assert (NR : NextRead e KeyOf inp) by (destruct PN as [PN | PN]; [apply next_read; exact PN | eapply wire_next; eauto]).
  destruct (wild_origin_read e KeyOf Honest (text_signed Signs) fuel inp v r (world_of _ _ _ _ W) HO TT HS PH PF NR V I) as [H | (nc & z' & d & S & _)]; [left; apply published_at_wire; exact H | right].
  exists nc, z', d. destruct S as (z & s & rs & pre & l & suf & s' & rs' & (p & HSg & TF) & T0 & N0 & I0 & L & EN & SG & DI & S1 & D1 & (q & EQ) & BO).
  destruct (denial_wire _ _ _ _ _ S1 D1) as [WD ND]. destruct (text_rdata p s rs r (rr_ty r) (rr_name r) TF T0 eq_refl I0) as (x & X1 & X2). split.
  - exists z, p, x, pre, l, suf. destruct TF as (C1 & _ & _ & T1 & _). rewrite N0 in C1. split; [exact HSg |]. split; [congruence |]. do 6 (split; [assumption |]).
    split; [exact DI |]. split; [exact WD |]. split; [exists q; congruence | exact BO].
  - destruct BO as [BO | BO]; [left | right; exact BO]. intros p' HS' N50 C. exact (wt_gap _ _ T z' d p' nc WD HS' N50 C BO).
Qed.
Lemma wire_exact e KeyOf Honest Signs dbg fuel proof inp v r z p : WireWorld e KeyOf Honest Signs -> (forall d, Honest d) -> WireTruthful Signs e -> SortsNeeds e ->
  is_bytes proof -> parse_rr_stream dbg proof = Ok inp -> ProperNext inp \/ WireOrdinary Signs -> verify_rr_stream e dbg fuel inp = Ok v -> In r (vr_rrs v) ->
  Signs z p -> CanonName (owner_octets p) (rr_name r) -> pb_type p <> 50 -> OneLabel inp (rr_name r) (rr_ty r) ->
  (forall d, In d inp -> ~ OwnRecord e d (rr_name r)) ->
  (forall d z', In d inp -> WireDenial Signs z' d -> Between e d (rr_name r) -> z' = z) ->
  WireIssuedAt Signs r.
Proof.
  intros W HO T HS B P PN V I SG C N50 OL NO NB. destruct (wire_origin e KeyOf Honest Signs dbg fuel proof inp v r W HO T HS B P PN V I) as [H | (nc & z' & d & S & _)]; [exact H | exfalso].
  destruct S as (z0 & p0 & x & pre & l & suf & _ & _ & _ & _ & _ & L & -> & (s1 & A1 & A2 & A3 & A4) & DI & WD & _ & BO).
  assert (pre = []) as ->. { specialize (OL s1 _ A1 A2 A3 L). rewrite app_length, A4 in OL. cbn [length] in OL. destruct pre; [reflexivity | cbn [length] in OL; lia]. }
  destruct L as (L & _). cbn [app] in L. rewrite <- L in BO. destruct BO as [BO | BO]; [| exact (NO d DI BO)].
  assert (z' = z) as -> by (eapply NB; eauto). exact (wt_gap _ _ T z d p (rr_name r) WD SG N50 C BO).
Qed.
