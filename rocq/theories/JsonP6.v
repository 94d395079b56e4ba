(** The JSON form determines the record (C51). *)
From Verif Require Import Base BaseP NameSpec NameM NameP WireM RRM RecSpec ValM ValSpec TextSpec TextP JsonM JsonSpec JsonP JsonP2 JsonP3 JsonP4.
From Coq Require Import Permutation String Lia.
Local Open Scope N_scope.

Lemma num_inj n m v : ShowsNum n v -> ShowsNum m v -> n = m.
Proof. intros (s & -> & A) (s' & E & B). injection E as <-. destruct A as (_ & _ & A & _), B as (_ & _ & B & _). congruence. Qed.
Lemma forall2_inj {A B} (P : A -> B -> Prop) (INJ : forall x y z, P x z -> P y z -> x = y) l l' k : Forall2 P l k -> Forall2 P l' k -> l = l'.
Proof. intros F. revert l'. induction F as [| x y l1 k1 H F IH]; intros m F'; inversion F'; subst; [reflexivity | f_equal; eauto]. Qed.
Lemma bytes_inj l l' v : ShowsBytes l v -> ShowsBytes l' v -> l = l'.
Proof. intros (vs & -> & F) (vs' & E & F'). injection E as <-. eapply forall2_inj; [| exact F | exact F']. apply num_inj. Qed.
Lemma hex_inj l s : HexText l s -> forall l', HexText l' s -> l = l'.
Proof. induction 1 as [| b l c1 c2 h1 h2 s A B E H IH]; intros m H'; inversion H'; subst; [reflexivity |]. f_equal; [congruence | auto]. Qed.
Lemma type_inj t t' v : ShowsType t v -> ShowsType t' v -> t = t'.
Proof.
  intros [(m & I & ->) | [_ S]] [(m' & I' & E) | [_ S']].
  - injection E as E. cbn in I, I'. repeat (destruct I as [I | I]; [injection I as <- <-; repeat (destruct I' as [I' | I']; [injection I' as <- <-; first [reflexivity | discriminate E] |]); destruct I' |]). destruct I.
  - destruct S' as (s & E & _). discriminate.
  - destruct S as (s & -> & _). discriminate.
  - eapply num_inj; eassumption.
Qed.
Lemma types_inj m m' v : is_mask m -> is_mask m' -> ShowsTypes m v -> ShowsTypes m' v -> m = m'.
Proof.
  intros [L B] [L' B'] (ts & vs & -> & F & _ & H) (ts' & vs' & E & F' & _ & H'). injection E as <-.
  assert (ts = ts') by (eapply forall2_inj; [| exact F | exact F']; apply type_inj). subst ts'.
  apply nth_ext with (d := 0) (d' := 0); [congruence |]. intros i LI. apply N.bits_inj. intros j.
  assert (Z : forall l k, is_bytes l -> 8 <= j -> N.testbit (nth k l 0) j = false).
  { intros l k IB G. assert (U : nth k l 0 < 2 ^ 8). { destruct (nth_in_or_default k l 0) as [I | ->]; [| reflexivity]. unfold is_bytes in IB. rewrite Forall_forall in IB. apply (IB _ I). }
    destruct (N.eq_dec (nth k l 0) 0) as [-> | NZ]; [apply N.bits_0 |]. apply N.bits_above_log2. apply N.lt_le_trans with 8; [apply N.log2_lt_pow2; [lia | exact U] | exact G]. }
  destruct (N.lt_ge_cases j 8) as [J | J]; [| rewrite !Z by assumption; reflexivity].
  assert (Q : forall t, type_in m t <-> type_in m' t) by (intros t; rewrite <- H, <- H'; reflexivity).
  specialize (Q (8 * N.of_nat i + (7 - j))). unfold type_in in Q. destruct (mod_range (N.of_nat i) (7 - j) ltac:(lia)) as [M D]. rewrite M, D, Nnat.Nat2N.id in Q.
  replace (7 - (7 - j)) with j in Q by lia.
  destruct (N.testbit (nth i m 0) j), (N.testbit (nth i m' 0) j); intuition congruence.
Qed.
Lemma contents_inj l l' v : Shows (FContents l) v -> Shows (FContents l') v -> l = l'.
Proof.
  cbn [Shows]. intros [[_ ->] | [_ S]] [[_ E] | [_ S']].
  - congruence.
  - destruct S' as (vs & E & _). discriminate.
  - destruct S as (vs & -> & _). discriminate.
  - eapply bytes_inj; eassumption.
Qed.

Lemma has_cons k f fs k' f' fs' v v' : HasFields ((k, f) :: fs) v -> HasFields ((k', f') :: fs') v' -> v = v' ->
  exists u r, Shows f u /\ Shows f' u /\ HasFields fs r /\ HasFields fs' r.
Proof.
  intros (kvs & -> & F) (kvs' & E' & F') E. subst. injection E as <-. inversion F as [| ? y ? l [_ S] F1]; subst. inversion F' as [| ? ? ? ? [_ S'] F1']; subst.
  exists (snd y), (JObj l). repeat split; auto; eexists; split; try reflexivity; assumption.
Qed.
Lemma text_eq s s' v : Shows (FText s) v -> Shows (FText s') v -> s = s'.
Proof. cbn. congruence. Qed.
Lemma hexf_eq s s' v : Shows (FHex s) v -> Shows (FHex s') v -> s = s'.
Proof. cbn. intros (a & -> & H) (b & E & H'). injection E as <-. eapply hex_inj; eassumption. Qed.

Ltac peel := match goal with A : HasFields (_ :: _) ?v, B : HasFields (_ :: _) ?v |- _ =>
  let u := fresh "u" in let rest := fresh "rest" in let S := fresh "S" in let S' := fresh "S'" in let A' := fresh "A" in let B' := fresh "B" in
  destruct (has_cons _ _ _ _ _ _ _ _ A B eq_refl) as (u & rest & S & S' & A' & B'); clear A B;
  first [pose proof (text_eq _ _ _ S S') | pose proof (num_inj _ _ _ S S') | pose proof (bytes_inj _ _ _ S S') | pose proof (hexf_eq _ _ _ S S')
        | pose proof (contents_inj _ _ _ S S') | let E := fresh "E" in match type of S with Shows (FTypes ?m) _ => match type of S' with Shows (FTypes ?m') _ => assert (E : m = m') by (eapply types_inj; eassumption) end end]; clear S S' end.
Lemma describes_inj r r' v : Held r -> Held r' -> Describes r v -> Describes r' v -> r = r'.
Proof.
  intros H H' D D'. unfold Describes, Held in *.
  destruct r as [x|x|x|x|x|x|x|x|x|x|x|x], r' as [y|y|y|y|y|y|y|y|y|y|y|y];
  try (exfalso; cbn [fields] in D, D'; destruct (has_cons _ _ _ _ _ _ _ _ D D' eq_refl) as (u & r & S & S' & _); cbn [Shows] in S, S'; subst; injection S'; discriminate).
  all: cbn [fields] in D, D'; cbn [typed_rr] in H, H'; repeat match type of H with _ /\ _ => destruct H as [? H] end; repeat match type of H' with _ /\ _ => destruct H' as [? H'] end;
    repeat peel; destruct x, y; cbn in *; congruence.
Qed.
Lemma json_injective r r' : Held r -> Held r' -> ~ is_rrsig r -> no_backslash r -> ~ is_rrsig r' -> no_backslash r' -> rr_json r = rr_json r' -> r = r'.
Proof.
  intros H H' S B S' B' E. destruct (proj2 (record_json r H) (conj S B)) as (v & J & D). destruct (proj2 (record_json r' H') (conj S' B')) as (v' & J' & D').
  rewrite <- E in J'. rewrite (json_unique _ _ _ J' J) in D'. exact (describes_inj r r' v H H' D D').
Qed.
