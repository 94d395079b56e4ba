(** Proofs for Prop_Star. *)
From Verif Require Import Base BaseP NameM WireM RRM SerM ValM NameSpec RecSpec NameP ValSpec ValP ValP2 ValP3 ValP4 SignedP AcceptSpec AcceptP4 StarSpec.
From Coq Require Import Permutation.
Local Open Scope N_scope.

Lemma list_last_app {A} (pre suf : list A) l x t : pre ++ l :: suf = x :: t -> length suf = length t -> pre = [] /\ l = x /\ suf = t.
Proof.
  intros E L. destruct pre as [| y pre]; cbn [app] in E.
  - injection E as -> ->. auto.
  - exfalso. injection E as -> E. apply (f_equal (@length _)) in E. rewrite app_length in E. cbn [length] in E. lia.
Qed.
Lemma at_wildcard_dec s : held_sig s -> AtWildcard s \/ ~ AtWildcard s.
Proof.
  intros H. destruct (valid_labels (rs_name s)) as (ls & L1 & _); [apply H |].
  destruct ls as [| l suf]; [right; intros (suf & L & _); pose proof (labelsof_inj _ _ _ L1 L); discriminate |].
  destruct (list_eq_dec N.eq_dec l [42]) as [-> | NE]; [| right; intros (suf' & L & _); pose proof (labelsof_inj _ _ _ L1 L); congruence].
  destruct (N.eq_dec (N.of_nat (length suf)) (rs_labels s)) as [E | NE]; [left; exists suf; auto |].
  right. intros (suf' & L & K). apply NE. pose proof (labelsof_inj _ _ _ L1 L) as X. injection X as ->. exact K.
Qed.
Lemma star_accepted e inp : Forall Held inp -> SortsNeeds e -> (forall s, In (RR_RRSig s) inp -> ~ EmptyMaxLabels inp s) -> TwoParams e inp ->
  Acceptable e inp -> ExpansionsDenied e inp -> OwnNsec e inp -> exists fuel v, verify_rr_stream e false fuel inp = Ok v.
Proof.
  intros HH SN HM HT A D O. apply acceptable_accepted; auto.
  intros z nc ty (s & pre & l & suf & V & G & N43 & N47 & -> & L & K & ->).
  destruct (at_wildcard_dec s) as [W | W]; [eapply held_rrsig; [exact HH | apply G] | | eapply D; eauto].
  destruct (O z s V G N43 N47 W) as (n & P & E & Lt). destruct W as (suf' & L' & K').
  pose proof (labelsof_inj _ _ _ L L') as X. apply list_last_app in X as (-> & -> & ->); [| lia].
  assert (NM : dotted ([42] :: suf') = rs_name s) by (symmetry; apply L'). left. destruct (proj1 (ac_sigs _ _ A z s V (proj1 G))) as (p & Ep).
  exists n, p. split; [exact P |]. split; [congruence |]. right. rewrite NM, <- E. split; [left; reflexivity | exact Lt].
Qed.
Lemma star_contradiction e dbg fuel inp v : Forall Held inp -> SortsNeeds e -> verify_rr_stream e dbg fuel inp = Ok v ->
  forall r z s, In r (vr_rrs v) -> Reached e inp z -> SignedByZone e inp (fun _ => True) z s -> In r (rrset inp (rs_name s) (rs_ty s)) ->
  AtWildcard s -> WeaklyDenied e inp (rr_name r) (rr_ty r).
Proof.
  intros HH SN H r z s Hr Hz Hs Hi (suf & L & K). assert (E : rr_name r = rs_name s) by (apply in_rrset in Hi; apply Hi).
  destruct (wildcard_denied e dbg fuel inp v HH SN H r z s Hr Hz Hs Hi) as [(ls & L1 & L2) | (nc & (pre & l & suf' & L1 & L2 & ->) & W)].
  - rewrite E in L1. rewrite (labelsof_inj _ _ _ L1 L) in L2. cbn [length] in L2. lia.
  - rewrite E in L1. pose proof (labelsof_inj _ _ _ L1 L) as X. apply list_last_app in X as (-> & -> & ->); [| lia].
    rewrite E. replace (rs_name s) with (dotted ([42] :: suf)) by (symmetry; apply L). exact W.
Qed.
