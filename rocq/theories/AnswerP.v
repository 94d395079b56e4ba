(** Proofs for Prop_Answer. *)
From Verif Require Import Base BaseP NameM WireM RRM SerM ValM NameSpec NameP RecSpec RecP ValSpec WireP SecSpec SecP2 SecP3 HeldP JsonP5 ResolveSpec ResolveP AnswerSpec.
Import List.ListNotations.
Local Open Scope N_scope.

Lemma published_issued Signed z v r : In r (vr_rrs v) -> Published Signed z v r -> Issued Signed r.
Proof.
  intros I (s & rs & HS & _ & HT & HC & HI & _). exists z, s, rs. split; [exact HS |]. split; [exact HT |]. split; [exact HC |].
  apply HI. exists r. auto.
Qed.

Section Chain.
  Variable Honest : list N -> Prop.
  Variable Signed : list N -> rrsig -> list RR -> Prop.
  Variable rrs : list RR.
  Hypothesis Hissued : forall r, In r rrs -> InGoodHands Honest (rr_name r) -> Issued Signed r.

  Lemma alias_issued n m : InGoodHands Honest n -> Alias redirect_text rrs n m -> PubAlias redirect_text Signed n m.
  Proof.
    intros G A. destruct A as [n c F | n d t _ F R Ac].
    - apply first_of_in in F as [I (c' & E & <-)]. injection E as <-. apply PubAlias_cname. apply Hissued; [exact I | exact G].
    - apply first_of_in in F as [I _]. eapply PubAlias_dname; [| exact R | exact Ac]. apply Hissued; [exact I |].
      destruct R as (p & En & _). intros d' p' E. cbn [rr_name] in E. apply (G d' (p ++ p')). rewrite <- app_assoc, <- E. exact En.
  Qed.
  Lemma aliases_lead k n m : Aliases redirect_text rrs k n m -> (forall x, Leads redirect_text Signed n x -> InGoodHands Honest x) -> Leads redirect_text Signed n m.
  Proof.
    intros A. induction A as [n | k n x m S A IH]; intros G; [constructor |].
    assert (P : PubAlias redirect_text Signed n x) by (apply alias_issued; [apply G; constructor | exact S]).
    eapply Leads_on; [exact P |]. apply IH. intros y L. apply G. eapply Leads_on; eassumption.
  Qed.
End Chain.

Lemma answers_published e KeyOf Honest Signed dbg fuel proof inp v k n l r : World e KeyOf Honest Signed -> is_bytes proof ->
  parse_rr_stream dbg proof = Ok inp -> verify_rr_stream e dbg fuel inp = Ok v -> name_try_from n = Some n ->
  (forall m, Leads redirect_text Signed n m -> InGoodHands Honest m) -> resolve_name (vr_rrs v) k n = Ok l -> In r l ->
  Leads redirect_text Signed n (rr_name r) /\ (exists z p, rr_name r = p ++ z /\ proper_name z /\ Published Signed z v r) /\
  (forall r', In r' (vr_rrs v) -> rr_name r' = rr_name r -> In r' l).
Proof.
  intros W B P V Vn G E I.
  assert (HV : Forall Held (vr_rrs v)) by (eapply verified_not_rrsig; [eapply parsed_held; eauto | exact V]).
  assert (HP : forall x, In x (vr_rrs v) -> InGoodHands Honest (rr_name x) -> exists z p, rr_name x = p ++ z /\ proper_name z /\ Published Signed z v x).
  { intros x Ix Gx. eapply proof_published; eauto. }
  assert (HI : forall x, In x (vr_rrs v) -> InGoodHands Honest (rr_name x) -> Issued Signed x).
  { intros x Ix Gx. destruct (HP x Ix Gx) as (z & p & _ & _ & H). eapply published_issued; eauto. }
  apply (resolve_spec _ HV) in E; [| exact Vn]. destruct E as (j & _ & m & A & [[_ ->] | [_ ->]]); [| contradiction].
  pose proof (aliases_lead Honest Signed (vr_rrs v) HI j n m A G) as L.
  unfold at_name in *. apply filter_In in I as [I Em]. destruct (list_eq_dec N.eq_dec (rr_name r) m) as [<- | ?]; [| discriminate Em].
  split; [exact L |]. split; [apply HP; [exact I | apply G, L] |].
  intros r' I' E'. apply filter_In. split; [exact I' |]. destruct (list_eq_dec N.eq_dec (rr_name r') (rr_name r)); [reflexivity | contradiction].
Qed.

Section Labels.
  Variable Honest : list N -> Prop.
  Variable Signed : list N -> rrsig -> list RR -> Prop.
  Variable rrs : list RR.
  Hypothesis Hheld : Forall Held rrs.
  Hypothesis Hissued : forall r, In r rrs -> InGoodHands Honest (rr_name r) -> Issued Signed r.
  Hypothesis Hcname : forall c, Issued Signed (RR_CName c) -> proper_name (cn_canonical c).
  Hypothesis Hdname : forall d, Issued Signed (RR_DName d) -> proper_name (dn_delegation d) /\ dn_delegation d <> [46].

  Lemma owner_proper n q o : proper_name n -> valid_name o -> n = (q ++ [46]) ++ o -> proper_name o /\ o <> [46].
  Proof.
    intros Pn Vo E. apply valid_name_spec in Vo as [(lo & NE & Eo & Fo & Lo) Lw].
    assert (Hn : n <> [46]).
    { intros ->. apply (f_equal (@length N)) in E. rewrite !app_length in E. rewrite Eo in E. pose proof (dots_length lo). destruct lo as [| x lo]; [contradiction |]. cbn [length] in *. lia. }
    destruct (proper_nonroot _ Pn Hn) as (ln & NEn & En & Fn & _).
    assert (X : ln = split_on 46 q ++ lo).
    { apply dots_inj; [apply labels_ok_nodot, proper_labels_ok; exact Fn | | rewrite dots_app, dots_split, <- Eo; congruence].
      apply Forall_app. split; [apply split_on_pieces | apply labels_ok_nodot; exact Fo]. }
    subst ln. apply Forall_app in Fn as [_ Fn]. split.
    - exists lo. destruct lo as [| a lo]; [contradiction |]. split; [split; [exact Fn | cbn [dotted]; rewrite <- Eo; exact Lo] |]. split; [exact Eo | exact Lw].
    - intros ->. destruct lo as [| a lo]; [contradiction |]. rewrite dots_cons in Eo. destruct a as [| c a].
      + inversion Fn as [| ? ? [Q _]]. contradiction.
      + inversion Fo as [| ? ? Q]. injection Eo as <- Eo. apply label_ok_nodot in Q. apply Q. left. reflexivity.
  Qed.
  Lemma alias_labels n m : InGoodHands Honest n -> proper_name n ->
    (forall d p, Issued Signed (RR_DName d) -> n = p ++ dn_name d -> exists q, p = q ++ [46]) ->
    Alias redirect_text rrs n m -> PubAlias redirect_labels Signed n m /\ proper_name m.
  Proof.
    intros G Pn Al A. destruct A as [n c F | n d t NC F R Ac].
    - apply first_of_in in F as [I (c' & E & <-)]. injection E as <-. assert (IS : Issued Signed (RR_CName c)) by (apply Hissued; [exact I | exact G]).
      split; [apply PubAlias_cname, IS | apply Hcname, IS].
    - apply first_of_in in F as [I _].
      assert (IS : Issued Signed (RR_DName d)).
      { apply Hissued; [exact I |]. destruct R as (p & En & _). intros d' p' E. cbn [rr_name] in E. apply (G d' (p ++ p')). rewrite <- app_assoc, <- E. exact En. }
      pose proof R as (p & En & Et). destruct (Al d p IS En) as (q & ->). destruct (Hdname d IS) as [Pd Nd].
      assert (Vo : valid_name (dn_name d)) by (rewrite Forall_forall in Hheld; apply (Hheld _ I)).
      destruct (owner_proper n q (dn_name d) Pn Vo En) as [Po No].
      assert (H1 : Forall (typed_rr proper_name) [RR_DName d]) by (constructor; [split; assumption | constructor]).
      assert (H2 : forall d', In (RR_DName d') [RR_DName d] -> dn_name d' <> [46] /\ dn_delegation d' <> [46]) by (intros d' [E | []]; injection E as <-; auto).
      assert (Ag : forall d' t', In (RR_DName d') [RR_DName d] -> (redirect_text n (dn_name d') (dn_delegation d') t' <-> redirect_labels n (dn_name d') (dn_delegation d') t')).
      { apply (aligned_agree [RR_DName d] H1 H2 n Pn). intros d' p' [E | []] En'. injection E as <-. eapply Al; eauto. }
      split; [eapply PubAlias_dname; [exact IS | apply Ag; [left; reflexivity | exact R] | exact Ac] |].
      apply (aligned_alias [RR_DName d] H1 n t Pn Ag). apply Alias_dname with (d := d); [| | exact R | exact Ac].
      + intros (r & [<- | []] & c & E & _). discriminate E.
      + exists [], []. split; [reflexivity |]. split; [exists d, t; auto | constructor].
  Qed.
  Lemma aliases_lead_labels k n m : Aliases redirect_text rrs k n m -> proper_name n -> (forall x, Leads redirect_labels Signed n x -> InGoodHands Honest x) ->
    (forall x d p, Leads redirect_labels Signed n x -> Issued Signed (RR_DName d) -> x = p ++ dn_name d -> exists q, p = q ++ [46]) -> Leads redirect_labels Signed n m.
  Proof.
    intros A. induction A as [n | k n x m S A IH]; intros Pn G Al; [constructor |].
    destruct (alias_labels n x (G n (Leads_here _ _ n)) Pn (fun d p => Al n d p (Leads_here _ _ n)) S) as [P Px].
    eapply Leads_on; [exact P |]. apply IH; [exact Px | |].
    - intros y L. apply G. eapply Leads_on; eassumption.
    - intros y d p L. apply Al. eapply Leads_on; eassumption.
  Qed.
End Labels.

Lemma answers_dns e KeyOf Honest Signed dbg fuel proof inp v k n l r : World e KeyOf Honest Signed -> is_bytes proof ->
  parse_rr_stream dbg proof = Ok inp -> verify_rr_stream e dbg fuel inp = Ok v -> proper_name n ->
  (forall m, Leads redirect_labels Signed n m -> InGoodHands Honest m) ->
  (forall c, Issued Signed (RR_CName c) -> proper_name (cn_canonical c)) ->
  (forall d, Issued Signed (RR_DName d) -> proper_name (dn_delegation d) /\ dn_delegation d <> [46]) ->
  (forall m d p, Leads redirect_labels Signed n m -> Issued Signed (RR_DName d) -> m = p ++ dn_name d -> exists q, p = q ++ [46]) ->
  resolve_name (vr_rrs v) k n = Ok l -> In r l ->
  Leads redirect_labels Signed n (rr_name r) /\ (exists z p, rr_name r = p ++ z /\ proper_name z /\ Published Signed z v r).
Proof.
  intros W B P V Pn G HC HD Al E I.
  assert (HV : Forall Held (vr_rrs v)) by (eapply verified_not_rrsig; [eapply parsed_held; eauto | exact V]).
  assert (HP : forall x, In x (vr_rrs v) -> InGoodHands Honest (rr_name x) -> exists z p, rr_name x = p ++ z /\ proper_name z /\ Published Signed z v x).
  { intros x Ix Gx. eapply proof_published; eauto. }
  assert (HI : forall x, In x (vr_rrs v) -> InGoodHands Honest (rr_name x) -> Issued Signed x).
  { intros x Ix Gx. destruct (HP x Ix Gx) as (z & p & _ & _ & H). eapply published_issued; eauto. }
  apply (resolve_spec _ HV) in E; [| apply proper_name_valid; exact Pn]. destruct E as (j & _ & m & A & [[_ ->] | [_ ->]]); [| contradiction].
  pose proof (aliases_lead_labels Honest Signed (vr_rrs v) HV HI HC HD j n m A Pn G Al) as L.
  unfold at_name in *. apply filter_In in I as [I Em]. destruct (list_eq_dec N.eq_dec (rr_name r) m) as [<- | ?]; [| discriminate Em].
  split; [exact L |]. apply HP; [exact I | apply G, L].
Qed.
