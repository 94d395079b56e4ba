(** Witnesses for Prop_Ends. *)
From Verif Require Import Base NameM WireM RRM SerM ValM NameSpec RecSpec CodecSpec ValSpec ValP ValP2 ValP3 ValW ValW2 OrderSpec OrderW AcceptSpec AcceptP AcceptP2 AcceptP3 AcceptP4 AcceptW AcceptP5.
From Coq Require Import String Permutation Arith.
Local Open Scope N_scope.

Lemma o_wild_one_key : OneKey o_wild.
Proof.
  intros k k' H H' E _ _. unfold o_wild, o_zones in H, H'. cbn [app In] in H, H'.
  repeat match goal with H : _ \/ _ |- _ => destruct H as [H | H] end; try discriminate; try contradiction; injection H as <-; injection H' as <-; try reflexivity; discriminate E.
Qed.
Lemma o_wild_one_sig : OneKeySig o_wild.
Proof.
  intros k k' H H' T T' E. unfold o_wild, o_zones in H, H'. cbn [app In] in H, H'.
  repeat match goal with H : _ \/ _ |- _ => destruct H as [H | H] end; try discriminate; try contradiction; injection H as <-; try discriminate T; injection H' as <-; try discriminate T'; try reflexivity; discriminate E.
Qed.

(** The root alone. *)
Lemma w_root_held : Forall Held w_root.
Proof. unfold w_root. held_all. Qed.
Lemma w_root_nosig z s : ~ ZoneSig w_root z s.
Proof.
  intros (H & _ & T). cbn in H. repeat match goal with H : _ \/ _ |- _ => destruct H as [H | H] end; try discriminate; try contradiction. injection H as <-. apply T. reflexivity.
Qed.
Lemma w_root_in_order : InOrder toy_env w_root.
Proof.
  assert (V : forall z, Visited toy_env w_root z -> z = [46]) by (intros z Hz; induction Hz as [| z s _ _ [G _] _]; [reflexivity | exfalso; eapply w_root_nosig; eauto]).
  split; [| intros z s _ Hs; exfalso; eapply w_root_nosig; eauto].
  intros z Hz. rewrite (V z Hz). exists (w_rrsig "." 48 0 "."). apply keysig_spec; [exact w_root_held |]. vm_compute. reflexivity.
Qed.
Lemma acceptable_in_order e inp : Acceptable e inp -> InOrder e inp.
Proof. intros [A B _ _ _ _]. split; assumption. Qed.
Lemma o_wild_in_order : InOrder echo_env o_wild.
Proof.
  apply acceptable_in_order. destruct (echo o_wild) as [v| | |] eqn:E; [| vm_compute in E; discriminate ..].
  eapply verdict_necessary; [exact o_wild_held | exact o_wild_max | exact E].
Qed.
