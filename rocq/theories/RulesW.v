(** Witnesses for Prop_Rules. *)
From Verif Require Import Base BaseP NameM WireM RRM SerM ValM NameSpec RecSpec ValSpec ValP ValP2 ValP3 SignedP ValW ValW2 OrderW AcceptSpec AcceptP AcceptP2 AcceptP4 AcceptP5 AcceptW RulesSpec RulesP.
From Coq Require Import String.
Local Open Scope N_scope.

(** The keys of a. are signed in the name of b., an NSEC record as if it had 200 labels, and a. signs for ba. *)
Definition ru_odd : list RR :=
  [w_key "."; o_sig "." 48 0 "." [w_key "."]; w_ds "a."; o_sig "a." 43 1 "." [w_ds "a."]; w_key "a."; o_sig "a." 48 1 "b." [w_key "a."];
   w_a "ba."; o_sig "ba." 1 1 "a." [w_a "ba."]; o_nsec; o_sig "c.a." 47 200 "a." [o_nsec]].
Lemma ru_held : Forall Held ru_odd.
Proof. unfold ru_odd. o_held_all. Qed.
Lemma ru_max s : In (RR_RRSig s) ru_odd -> ~ EmptyMaxLabels ru_odd s.
Proof. apply not_max. vm_compute. reflexivity. Qed.
Lemma ru_ok : exists v, echo ru_odd = Ok v /\ vr_rrs v = [w_a "ba."].
Proof. eexists. split; vm_compute; reflexivity. Qed.
Lemma ru_visited : Visited echo_env ru_odd (bs "a.").
Proof.
  destruct ru_ok as (v & E & R). destruct (accepted_result _ _ ru_held _ _ E) as [C _].
  assert (I : In (w_a "ba.") (vr_rrs v)) by (rewrite R; left; reflexivity). apply C in I as [(z & s & V & ((G1 & <- & _) & _) & _ & G) _].
  apply in_rrset in G as (_ & N & T). clear E R C. unfold ru_odd in G1. cbn [In] in G1.
  repeat match goal with H : _ \/ _ |- _ => destruct H as [H | H] end; try discriminate; try contradiction; injection G1 as <-; try discriminate. exact V.
Qed.
Lemma ru_relied_key : ReliedOn echo_env ru_odd (bs "a.") (o_rrsig "a." 48 1 "b." [w_key "a."]).
Proof.
  split; [exact ru_visited | left]. destruct ru_ok as (v & E & _). pose proof (accepted_acceptable _ _ ru_held ru_max _ _ E) as A.
  destruct (ac_keys _ _ A _ ru_visited) as (s & K). assert (K' := K). apply key_sig_at in K' as (I & N & T & _). clear E A. unfold ru_odd in I. cbn [In] in I.
  repeat match goal with H : _ \/ _ |- _ => destruct H as [H | H] end; try discriminate; try contradiction; injection I as <-; try discriminate. exact K.
Qed.
Lemma ru_relied s : In (RR_RRSig s) ru_odd -> rs_key_name s = bs "a." -> ReliedOn echo_env ru_odd (bs "a.") s.
Proof.
  intros I N. split; [exact ru_visited | right]. destruct ru_ok as (v & E & _). pose proof (accepted_acceptable _ _ ru_held ru_max _ _ E) as A.
  assert (Z : ZoneSig ru_odd (bs "a.") s).
  { clear E A. split; [exact I |]. split; [exact N |]. unfold ru_odd in I. cbn [In] in I.
    repeat match goal with H : _ \/ _ |- _ => destruct H as [H | H] end; try discriminate; try contradiction; injection I as <-; discriminate. }
  destruct (ac_sigs _ _ A _ _ ru_visited Z) as [_ [(_ & _ & U & _) | [G _]]]; [| exact G].
  exfalso. apply U. clear E A U. unfold ru_odd in I. cbn [In] in I.
  repeat match goal with H : _ \/ _ |- _ => destruct H as [H | H] end; try discriminate; try contradiction; injection I as <-; left; reflexivity.
Qed.

Lemma signer_refuted : ~ (forall e inp fuel v, Forall Held inp -> (forall s, In (RR_RRSig s) inp -> ~ EmptyMaxLabels inp s) -> verify_rr_stream e false fuel inp = Ok v ->
  forall z s, ReliedOn e inp z s -> SignerRule z s).
Proof. intros H. destruct ru_ok as (v & E & _). specialize (H _ _ _ _ ru_held ru_max E _ _ ru_relied_key). discriminate H. Qed.
Lemma labels_refuted : ~ (forall e inp fuel v, Forall Held inp -> (forall s, In (RR_RRSig s) inp -> ~ EmptyMaxLabels inp s) -> verify_rr_stream e false fuel inp = Ok v ->
  forall z s, ReliedOn e inp z s -> LabelsRule s).
Proof.
  intros H. destruct ru_ok as (v & E & _).
  assert (R : ReliedOn echo_env ru_odd (bs "a.") (o_rrsig "c.a." 47 200 "a." [o_nsec])) by (apply ru_relied; [unfold ru_odd, o_sig; cbn [In]; tauto | reflexivity]).
  destruct (H _ _ _ _ ru_held ru_max E _ _ R) as (ls & L & K).
  assert (X : LabelsOf (bs "c.a.") [[99]; [97]]) by (split; [reflexivity |]; split; [repeat constructor; cbn; intuition discriminate | discriminate]).
  rewrite (labelsof_inj _ _ _ L X) in K. apply K. reflexivity.
Qed.
Lemma zone_refuted : ~ (forall e inp fuel v, Forall Held inp -> (forall s, In (RR_RRSig s) inp -> ~ EmptyMaxLabels inp s) -> verify_rr_stream e false fuel inp = Ok v ->
  forall z s, ReliedOn e inp z s -> ZoneRule z s).
Proof.
  intros H. destruct ru_ok as (v & E & _).
  assert (R : ReliedOn echo_env ru_odd (bs "a.") (o_rrsig "ba." 1 1 "a." [w_a "ba."])) by (apply ru_relied; [unfold ru_odd, o_sig; cbn [In]; tauto | reflexivity]).
  destruct (H _ _ _ _ ru_held ru_max E _ _ R) as (pre & ls & L1 & L2).
  assert (E2 : LabelsOf (bs "a.") [[97]]) by (split; [reflexivity|]; split; [repeat constructor; cbn; intuition discriminate|discriminate]).
  assert (E1 : LabelsOf (rs_name (o_rrsig "ba." 1 1 "a." [w_a "ba."])) [[98; 97]]) by (split; [reflexivity|]; split; [repeat constructor; cbn; intuition discriminate|discriminate]).
  pose proof (labelsof_inj _ _ _ L2 E2) as E3. subst ls. pose proof (labelsof_inj _ _ _ L1 E1) as E4.
  destruct pre as [|p [|q pre]]; discriminate E4.
Qed.
