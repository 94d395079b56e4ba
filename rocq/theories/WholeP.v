(** Proofs for Prop_Whole. *)
From Verif Require Import Base BaseP NameM NameP WireM WireP RRM SerM ValM NameSpec WireSpec BitmapSpec BitmapP RecSpec CodecSpec RecP RecP2 HeldP QueryP ValSpec ValP ValP2 ValP5
  SignedSpec SignedP AcceptSpec AcceptP4 DbgP OrdRR CanonSpec CanonP AlikeP WholeSpec.
From Coq Require Import Sorted Permutation.
Local Open Scope N_scope.

Lemma reads_type w r : Reads w r -> rr_ty r = wr_type w /\ rr_name r = owner_text w.
Proof. intros R. apply data_type in R as [-> ->]. auto. Qed.
Lemma reads_record w r : proper (wr_owner w) -> Reads w r -> RecordEnc NamePlain false (wr_octets w) r (wr_ttl w).
Proof. intros P R. apply (RecordEnc_intro _ _ _ (owner_text w)); [apply lower_plain; exact P | exact R]. Qed.
Lemma reads_parse dbg ws inp : Forall LegalRecord ws -> Forall2 Reads ws inp -> parse_rr_stream dbg (concat (map wr_octets ws)) = Ok inp.
Proof.
  intros L R. apply parse_stream_complete. induction R as [| w r ws rs R1 R IH]; [constructor |]. inversion L as [| ? ? (_ & P & _) L']; subst.
  cbn [map concat]. econstructor; [apply RecordEnc_lax, reads_record; eassumption | apply IH; exact L'].
Qed.
Lemma legal_bytes ws : Forall LegalRecord ws -> is_bytes (concat (map wr_octets ws)).
Proof. induction 1 as [| w ws (A & _) H IH]; [constructor |]. cbn [map concat]. apply Forall_app. split; assumption. Qed.

(** Every legal record says something, and only one thing. *)
Lemma four_bytes (d : list N) : length_of d = 4 -> exists a b c y, d = [a; b; c; y].
Proof. unfold length_of. destruct d as [| a [| b [| c [| y [| ? ?]]]]]; cbn [List.length]; intros; try (exfalso; lia). eauto. Qed.
Lemma u32_bytes a b c d : a < 256 -> b < 256 -> c < 256 -> d < 256 -> exists n, u32 n = [a; b; c; d].
Proof.
  intros Ha Hb Hc Hd. exists (((a * 256 + b) * 256 + c) * 256 + d). unfold u32.
  change 16777216 with (256 * (256 * 256)). change 65536 with (256 * 256). rewrite <- !N.div_div by lia.
  assert (D : forall q r, r < 256 -> (q * 256 + r) / 256 = q /\ (q * 256 + r) mod 256 = r).
  { intros q r Hr. rewrite N.add_comm, N.div_add, N.mod_add, N.div_small, N.mod_small by lia. lia. }
  rewrite !(proj1 (D _ _ Hd)), (proj2 (D _ _ Hd)), !(proj1 (D _ _ Hc)), (proj2 (D _ _ Hc)), !(proj1 (D _ _ Hb)), (proj2 (D _ _ Hb)). reflexivity.
Qed.
Lemma reads_exists w : LegalRecord w -> exists r, Reads w r.
Proof.
  destruct w as [ls ty ttl data]. unfold LegalRecord, Reads, wr_octets. cbn [wr_owner wr_type wr_ttl wr_data]. intros (HB & HP & HC). set (o := owner_text _).
  assert (Hdata : is_bytes data). { unfold is_bytes in *. rewrite !Forall_app in HB. tauto. }
  destruct HC as [(d & HC) | (-> & head & signer & sg & L & P & ->)].
  - inversion HC as [d0 L | d0 L | d0 L | d0 L | d0 L | ty0 ns I P | strs S F | ns bits P B | h salt nh bits L B dd]; subst; clear HC.
    + eexists. apply RD_A. exact L.
    + eexists. apply RD_AAAA. exact L.
    + destruct d as [| u [| s [| t rest]]]; try (exfalso; unfold length_of in L; cbn [List.length] in L; lia). eexists. apply RD_TLSA.
    + destruct d as [| a [| b [| c [| y rest]]]]; try (exfalso; unfold length_of in L; cbn [List.length] in L; lia). inversion Hdata as [| ? ? B1 Hd]; subst. inversion Hd as [| ? ? B2 Hd2]; subst.
      destruct (u16_bytes a b B1 B2) as [U _]. eexists. change (a :: b :: c :: y :: rest) with ([a; b] ++ c :: y :: rest). rewrite <- U. apply RD_DS.
    + destruct d as [| a [| b [| c [| y rest]]]]; try (exfalso; unfold length_of in L; cbn [List.length] in L; lia). inversion Hdata as [| ? ? B1 Hd]; subst. inversion Hd as [| ? ? B2 Hd2]; subst.
      destruct (u16_bytes a b B1 B2) as [U _]. eexists. change (a :: b :: c :: y :: rest) with ([a; b] ++ c :: y :: rest). rewrite <- U. apply RD_DnsKey.
    + pose proof (lower_plain ns P) as PL. cbn [In] in I. rewrite <- (app_nil_r (wire_name ns)).
      destruct I as [<- | [<- | [<- | []]]]; eexists; [apply RD_NS | apply RD_CName | apply RD_DName]; eauto.
    + eexists. apply RD_Txt.
    + destruct (bitmap_exists bits B) as (mask & BM). eexists. apply RD_NSec; [apply lower_plain; exact P | exact BM].
    + destruct (bitmap_exists bits B) as (mask & BM). destruct (four_bytes h L) as (al & fl & i1 & i2 & ->). subst dd. cbn [app] in *.
      inversion Hdata as [| ? ? B1 Hd]; subst. inversion Hd as [| ? ? B2 Hd2]; subst. inversion Hd2 as [| ? ? B3 Hd3]; subst. inversion Hd3 as [| ? ? B4 Hd4]; subst.
      destruct (u16_bytes i1 i2 B3 B4) as [U _]. eexists. change (al :: fl :: i1 :: i2 :: ?x) with (al :: fl :: [i1; i2] ++ x). rewrite <- U. apply RD_NSec3. exact BM.
  - apply Forall_app in Hdata as [Hh _]. unfold length_of in L.
    do 18 (destruct head as [| ? head]; [exfalso; cbn [List.length] in L; lia |]). destruct head; [| exfalso; cbn [List.length] in L; lia].
    repeat match goal with H : Forall is_u8 (_ :: _) |- _ => inversion H; subst; clear H end. unfold is_u8 in *.
    destruct (u16_bytes n n0) as [U1 _]; [assumption .. |]. destruct (u32_bytes n3 n4 n5 n6) as (t1 & U2); [assumption .. |]. destruct (u32_bytes n7 n8 n9 n10) as (t2 & U3); [assumption .. |].
    destruct (u32_bytes n11 n12 n13 n14) as (t3 & U4); [assumption .. |]. destruct (u16_bytes n15 n16) as [U5 _]; [assumption .. |].
    eexists.
    assert (X : forall x, [n; n0; n1; n2; n3; n4; n5; n6; n7; n8; n9; n10; n11; n12; n13; n14; n15; n16] ++ x = u16 (n * 256 + n0) ++ n1 :: n2 :: u32 t1 ++ u32 t2 ++ u32 t3 ++ u16 (n15 * 256 + n16) ++ x)
      by (intros x; rewrite U1, U2, U3, U4, U5; reflexivity).
    rewrite X. apply RD_RRSig. apply lower_plain. exact P.
Qed.
Lemma whole_reads ws : Forall LegalRecord ws -> exists inp, Forall2 Reads ws inp.
Proof.
  induction 1 as [| w ws H L (inp & IH)]; [exists []; constructor |]. destruct (reads_exists w H) as (r & R). exists (r :: inp). constructor; assumption.
Qed.
Lemma reads_unique w r r' : LegalRecord w -> Reads w r -> Reads w r' -> r = r'.
Proof.
  intros L R R'. assert (F : Forall LegalRecord [w]) by (constructor; [exact L | constructor]).
  assert (A := reads_parse false [w] [r] F ltac:(constructor; [exact R | constructor])).
  assert (B := reads_parse false [w] [r'] F ltac:(constructor; [exact R' | constructor])). rewrite A in B. congruence.
Qed.
Lemma whole_held ws inp : Forall LegalRecord ws -> Forall2 Reads ws inp -> Forall Held inp.
Proof. intros L R. eapply parsed_held; [apply legal_bytes; exact L | exact (reads_parse false ws inp L R)]. Qed.

Section Whole.
  Variable e : env.
  Variable ws : list wire_rr.
  Variable inp : list RR.
  Hypothesis HL : Forall LegalRecord ws.
  Hypothesis HR : Forall2 Reads ws inp.
  Hypothesis HT : Tidy ws inp.

  Lemma sets_read n ty : Forall2 Reads (set_of ws n ty) (rrset inp n ty).
  Proof.
    unfold set_of, rrset. clear HL HT. induction HR as [| w r ws0 inp0 R R0 IH]; [constructor |]. cbn [filter]. destruct (reads_type _ _ R) as [-> ->].
    specialize (IH R0).
    destruct (list_eq_dec N.eq_dec (owner_text w) n); [| exact IH]. destruct (wr_type w =? ty); [constructor; assumption | exact IH].
  Qed.
  Lemma set_in n ty w : In w (set_of ws n ty) -> In w ws /\ owner_text w = n /\ wr_type w = ty.
  Proof.
    unfold set_of. intros H. apply filter_In in H as [H K]. destruct (list_eq_dec N.eq_dec (owner_text w) n); [| discriminate]. apply N.eqb_eq in K. auto.
  Qed.
  Lemma sets_mean n ty : ty <> 46 -> Forall2 Means (set_of ws n ty) (rrset inp n ty).
  Proof.
    intros NT. destruct HT as (HF & HN & _). pose proof (sets_read n ty) as R.
    assert (S : Forall (fun w => LegalRecord w /\ FullStrings w /\ LowerNext w /\ wr_type w <> 46) (set_of ws n ty)).
    { apply Forall_forall. intros w I. apply set_in in I as (I & _ & T). rewrite Forall_forall in *. repeat split; auto; try (apply HL; exact I). congruence. }
    revert S R. generalize (set_of ws n ty), (rrset inp n ty). intros l l' S R. induction R as [| w r l l' R1 R IH]; [constructor |].
    inversion S as [| ? ? (L & F & N & T) S']; subst. constructor; [| apply IH; exact S'].
    destruct L as (A & B & [C | [C _]]); [| congruence]. destruct (means_exists w A B C F N) as (r' & M).
    assert (L : LegalRecord w) by (split; [exact A |]; split; [exact B | left; exact C]).
    assert (R' : Reads w r').
    { destruct M as (_ & _ & _ & RE & _). remember (wr_octets w) as oc eqn:E0. remember (wr_ttl w) as tt0 eqn:ET. destruct RE as [nb o ty0 ttl0 r0 data0 N0 D0]. unfold wr_octets in E0.
      destruct (NamePlain_unambiguous _ _ _ _ _ _ N0 (lower_plain _ B) E0) as (-> & -> & E1). apply u16_app_inv in E1 as [-> E1].
      rewrite <- ET in E1. do 2 apply app_inv_head in E1. apply u16_app_inv in E1 as [_ ->]. exact D0. }
    rewrite (reads_unique _ _ _ L R1 R'). exact M.
  Qed.
  Lemma sig_name s : In (RR_RRSig s) inp -> proper_name (rs_key_name s).
  Proof.
    intros I. clear HT. revert HL I. induction HR as [| w r ws0 inp0 R R0 IH]; intros L I; [destruct I |]. inversion L as [| ? ? LW L']; subst. destruct I as [-> | I]; [| apply IH; assumption].
    destruct LW as (_ & _ & [(d & C) | (_ & head & signer & sg & LH & P & E)]).
    - exfalso. pose proof (proj1 (reads_type _ _ R)) as T. cbn [rr_ty] in T. rewrite <- T in C. inversion C. cbn in *. intuition discriminate.
    - unfold Reads in R. rewrite E in R. inversion R as [| | | | | | | | | o0 ty0 a0 l0 t0 x0 i0 g0 b n sg0 N0 | |]; subst. cbn [rs_key_name].
      assert (X' : (u16 ty0 ++ a0 :: l0 :: u32 t0 ++ u32 x0 ++ u32 i0 ++ u16 g0) ++ b ++ sg0 = head ++ wire_name signer ++ sg) by assumption.
      apply app_inv_len in X' as [_ X']; [| symmetry; exact LH].
      destruct (NamePlain_unambiguous _ _ _ _ _ _ N0 (lower_plain _ P) X') as (_ & -> & _). apply lower_proper_name. exact P.
  Qed.
  Lemma signs_same s msg : In (RR_RRSig s) inp -> (ToSign ws s msg <-> SignedData s (sort_by rr_cmp (rrset inp (rs_name s) (rs_ty s))) msg).
  Proof.
    intros I. pose proof (sig_name s I) as PN. destruct HT as (HF & HN & HS). destruct (HS s I) as (T46 & _ & NO & PO). clear HS.
    pose proof (sets_mean (rs_name s) (rs_ty s) T46) as M. unfold ToSign.
    assert (HO : Forall (fun w => owner_text w = rs_name s /\ wr_type w = rs_ty s /\ proper (wr_owner w)) (set_of ws (rs_name s) (rs_ty s))).
    { apply Forall_forall. intros w J. apply set_in in J as (J & A & B). rewrite Forall_forall in HL. split; [exact A |]. split; [exact B |]. apply (HL w J). }
    revert NO PO M HO. generalize (set_of ws (rs_name s) (rs_ty s)), (rrset inp (rs_name s) (rs_ty s)). intros l rs NO PO M HO.
    assert (W : Forall wf_rr rs) by (clear - M; induction M as [| w r l rs (A & _) M IH]; constructor; assumption).
    assert (W' : Forall wf_rr (sort_by rr_cmp rs)) by (rewrite <- (sort_perm rr_cmp rs); exact W).
    assert (FT : Forall (Fit s) l) by (rewrite Forall_forall in *; intros w J; split; [apply (HO w J) | apply (NO w J)]).
    rewrite (signed_wire s _ msg PN W').
    assert (HOr : forall a b, In a rs -> In b rs -> (rr_le a b <-> RDataLe a b)).
    { apply (orderly_le l rs (rs_name s) (rs_ty s)); try assumption. rewrite Forall_forall in *. intros w J. destruct (HO w J) as (A & B & _). auto. }
    split.
    - intros (ord & P & O & S). destruct (forall2_perm _ _ _ M _ P) as (rs' & P' & F'). assert (FT' : Forall (Fit s) ord) by (eapply Permutation_Forall; eauto).
      rewrite <- (proj1 (canonical_sort_when rs rs' HOr)); [apply (signed_same s ord rs'); assumption |].
      split; [exact P' | apply (order_same ord rs' F'); exact O].
    - intros S. destruct (proj2 (canonical_sort_when rs (sort_by rr_cmp rs) HOr) eq_refl) as [P O].
      destruct (forall2_perm _ _ _ (forall2_flip _ _ _ M) _ P) as (ws' & P' & F'). apply forall2_flip in F'. assert (FT' : Forall (Fit s) ws') by (eapply Permutation_Forall; eauto).
      exists ws'. split; [exact P' |]. split; [apply (order_same ws' _ F'); exact O | apply (signed_same s ws' _ msg FT' F'); exact S].
  Qed.

  Lemma set_types s : Forall (fun r => rr_ty r = rs_ty s) (rrset inp (rs_name s) (rs_ty s)).
  Proof. apply Forall_forall. intros r I. apply in_rrset in I. tauto. Qed.
  Lemma valid_same P keys s : In (RR_RRSig s) inp -> (WValid e ws P keys s <-> ValidSig e P keys s (rrset inp (rs_name s) (rs_ty s))).
  Proof.
    intros I. unfold WValid, ValidSig. pose proof (set_types s). split.
    - intros (k & m & A & B & C). split; [assumption |]. exists k, m. rewrite <- (signs_same s m I). auto.
    - intros (_ & k & m & A & B & C). exists k, m. rewrite (signs_same s m I). auto.
  Qed.
  Lemma unknown_same P keys s : In (RR_RRSig s) inp -> (WUnknown ws P keys s <-> UnknownSig P keys s (rrset inp (rs_name s) (rs_ty s))).
  Proof.
    intros I. unfold WUnknown, UnknownSig. pose proof (set_types s). split.
    - intros (U & k & m & A & B). split; [assumption |]. split; [exact U |]. exists k, m. rewrite <- (signs_same s m I). auto.
    - intros (_ & U & k & m & A & B). split; [exact U |]. exists k, m. rewrite (signs_same s m I). auto.
  Qed.
  Lemma over_in z ty s : In s (sigs_over inp z ty) -> In (RR_RRSig s) inp /\ rs_name s = z /\ rs_ty s = ty.
  Proof.
    unfold sigs_over. intros H. apply in_flat_map in H as (r & I & H). destruct r; try destruct H.
    destruct (list_eq_dec N.eq_dec (rs_name r) z); [| destruct H]. destruct (rs_ty r =? ty) eqn:E; [| destruct H]. apply N.eqb_eq in E. destruct H as [<- | []]. auto.
  Qed.
  Lemma key_same z s : WKeySig e ws inp z s <-> KeySig e inp z s.
  Proof.
    unfold WKeySig, KeySig. split; intros (pre & post & E & A & B); exists pre, post; (split; [exact E |]).
    all: assert (I : forall x, In x (pre ++ [s]) -> In (RR_RRSig x) inp /\ rs_name x = z /\ rs_ty x = 48)
           by (intros x H; apply over_in; rewrite E; apply in_app_iff; apply in_app_iff in H as [H | [<- | []]]; [left; exact H | right; left; reflexivity]).
    all: destruct (I s ltac:(apply in_app_iff; right; left; reflexivity)) as (Is & Ns & Ts).
    - split.
      + rewrite Forall_forall in A |- *. intros x H. destruct (I x ltac:(apply in_app_iff; left; exact H)) as (Ix & Nx & Tx).
        specialize (A x H). apply unknown_same in A; [| exact Ix]. rewrite Nx, Tx in A. exact A.
      + apply valid_same in B; [| exact Is]. rewrite Ns, Ts in B. exact B.
    - split.
      + rewrite Forall_forall in A |- *. intros x H. destruct (I x ltac:(apply in_app_iff; left; exact H)) as (Ix & Nx & Tx).
        apply unknown_same; [exact Ix |]. rewrite Nx, Tx. apply A. exact H.
      + apply valid_same; [exact Is |]. rewrite Ns, Ts. exact B.
  Qed.
  Lemma good_same z s : WGoodSig e ws inp z s <-> GoodSig e inp z s.
  Proof. unfold WGoodSig, GoodSig. split; intros [(I & Z) V]; (split; [split; assumption | apply valid_same; assumption]). Qed.
  Lemma passed_same z s : WPassedSig ws inp z s <-> PassedSig inp z s.
  Proof. unfold WPassedSig, PassedSig. split; intros [(I & Z) V]; (split; [split; assumption | apply unknown_same; assumption]). Qed.
  Lemma visited_same z : WVisited e ws inp z <-> Visited e inp z.
  Proof.
    split; induction 1 as [| z s V IH G T]; [constructor | apply good_same in G; econstructor; eauto | constructor | apply good_same in G; econstructor; eauto].
  Qed.
  Lemma used_same s : WUsed e ws inp s <-> Used e inp s.
  Proof. unfold WUsed, Used. split; intros (z & V & H); exists z; rewrite visited_same, key_same, good_same in *; auto. Qed.
  Lemma proven_same r : WProven e ws inp r <-> Proven e inp r.
  Proof.
    unfold WProven, Proven. split; intros (z & s & V & G & N & I); exists z, s; rewrite visited_same, good_same in *; rewrite in_rrset in *; auto.
  Qed.
  Lemma needs_same z nc ty : WNeedsDenial e ws inp z nc ty <-> NeedsDenial e inp z nc ty.
  Proof. unfold WNeedsDenial, NeedsDenial. split; intros (s & p & l & q & V & G & H); exists s, p, l, q; rewrite visited_same, good_same in *; auto. Qed.
  Lemma acceptable_same : WAcceptable e ws inp <-> Acceptable e inp.
  Proof.
    split; intros [A B C D E F]; split.
    - intros z V. apply visited_same in V. destruct (A z V) as (s & K). exists s. apply key_same. exact K.
    - intros z s V Z. apply visited_same in V. destruct (B z s V Z) as [P Q]. split; [exact P |]. rewrite passed_same, good_same in Q. exact Q.
    - destruct C as (r & C). exists r. apply proven_same. exact C.
    - destruct D as (s & G & T). exists s. rewrite <- good_same. auto.
    - intros z s V G. apply E; [apply visited_same; exact V | apply good_same; exact G].
    - intros a b Ua Ub. apply F; apply used_same; assumption.
    - intros z V. apply visited_same in V. destruct (A z V) as (s & K). exists s. apply key_same. exact K.
    - intros z s V Z. apply visited_same in V. destruct (B z s V Z) as [P Q]. split; [exact P |]. rewrite passed_same, good_same. exact Q.
    - destruct C as (r & C). exists r. apply proven_same. exact C.
    - destruct D as (s & G & T). exists s. rewrite good_same. auto.
    - intros z s V G. apply E; [apply visited_same; exact V | apply good_same; exact G].
    - intros a b Ua Ub. apply F; apply used_same; assumption.
  Qed.
  Lemma denials_same : WDenials e ws inp <-> Denials e inp.
  Proof.
    unfold WDenials, Denials, DeniedUnder.
    split; intros H z nc ty ND; apply needs_same in ND; destruct (H z nc ty ND) as [(n & p & A & B) | (n & p & A & B)]; [left | right | left | right]; exists n, p; rewrite proven_same in *; auto.
  Qed.
  Lemma two_same : WTwoParams e ws inp <-> TwoParams e inp.
  Proof.
    unfold WTwoParams, TwoParams. split; intros H z nc ty ND; apply needs_same in ND; destruct (H z nc ty ND) as (p & q & K); exists p, q; intros n pre Pn; apply K; apply proven_same; exact Pn.
  Qed.
  Lemma one_same : WOneZone e ws inp <-> OneZone e inp.
  Proof. unfold WOneZone, OneZone. split; intros H z z' nc ty ty' A B; eapply H; apply needs_same; eassumption. Qed.
  Lemma tidy_max s : In (RR_RRSig s) inp -> ~ EmptyMaxLabels inp s.
  Proof. intros I (_ & E & _). destruct HT as (_ & _ & H). destruct (H s I) as (_ & X & _). contradiction. Qed.
End Whole.

Lemma whole_builds dbg e ws inp fuel : Forall LegalRecord ws -> Forall2 Reads ws inp -> Tidy ws inp -> verify_rr_stream e dbg fuel inp = verify_rr_stream e false fuel inp.
Proof.
  intros L R T. destruct dbg; [| reflexivity]. symmetry. apply verify_same. intros P.
  destruct (parsed_verify_panic e true false fuel _ inp (legal_bytes ws L) (reads_parse false ws inp L R) P) as (_ & z & s & M & _ & S).
  exact (tidy_max ws inp T s (proj1 S) M).
Qed.
Lemma whole_exact dbg e ws inp : Forall LegalRecord ws -> Forall2 Reads ws inp -> Tidy ws inp -> SortsNeeds e -> WTwoParams e ws inp -> WOneZone e ws inp ->
  parse_rr_stream dbg (concat (map wr_octets ws)) = Ok inp /\ ((exists fuel v, verify_rr_stream e dbg fuel inp = Ok v) <-> WAcceptable e ws inp /\ WDenials e ws inp).
Proof.
  intros L R T S TP OZ. split; [apply reads_parse; assumption |]. rewrite (acceptable_same e ws inp L R T), (denials_same e ws inp L R T).
  rewrite <- accepted_iff; [| eapply whole_held; eassumption | exact S | eapply tidy_max; eassumption | apply (two_same e ws inp L R T); exact TP | apply (one_same e ws inp L R T); exact OZ].
  split; intros (fuel & v & H); exists fuel, v; rewrite (whole_builds dbg e ws inp fuel L R T) in *; exact H.
Qed.
Lemma whole_necessary dbg e ws inp fuel v : Forall LegalRecord ws -> Forall2 Reads ws inp -> Tidy ws inp -> verify_rr_stream e dbg fuel inp = Ok v -> WAcceptable e ws inp.
Proof.
  intros L R T H. rewrite (whole_builds dbg e ws inp fuel L R T) in H.
  apply (acceptable_same e ws inp L R T). eapply verdict_necessary; [eapply whole_held; eassumption | eapply tidy_max; eassumption | exact H].
Qed.
Lemma whole_result dbg e ws inp fuel v : Forall LegalRecord ws -> Forall2 Reads ws inp -> Tidy ws inp -> verify_rr_stream e dbg fuel inp = Ok v ->
  (forall r, In r (vr_rrs v) <-> WProven e ws inp r /\ rr_ty r <> 47 /\ rr_ty r <> 50) /\
  exists used, (forall s, In s used <-> WUsed e ws inp s) /\
    is_max (vr_valid_from v) (map (fun s => resolve_time (rs_inception s)) used) /\
    is_min (vr_expires v) (map (fun s => resolve_time (rs_expiration s)) used) /\ is_min (vr_max_cache_ttl v) (map rs_orig_ttl used).
Proof.
  intros L R T H. rewrite (whole_builds dbg e ws inp fuel L R T) in H. destruct (verdict_result e inp fuel v (whole_held ws inp L R) H) as (A & used & U & B). split.
  - intros r. rewrite (proven_same e ws inp L R T). apply A.
  - exists used. split; [| exact B]. intros s. rewrite (used_same e ws inp L R T). apply U.
Qed.
