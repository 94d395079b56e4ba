(** Witnesses for C76. *)
From Verif Require Import Base BaseP NameM WireM RRM SerM ValM NameSpec NameP OrdP WireSpec RecSpec RecP RecP2 ValSpec SignedSpec SignedP ValP ValP2 ValP3 ValP4 ValP5 HeldP OrdRR ValW ValW2 SortW OrdM OrdSpec OrdP2.
From Coq Require Import String Permutation Sorted Arith.
Local Open Scope N_scope.

Definition t_txt (s : string) : RR := RR_Txt {| tx_name := bs "a."; tx_data := bs s |}.
Lemma t_txt_wf : wf_rr (t_txt "b") /\ wf_rr (t_txt "aa").
Proof. split; (split; [split; [o_name | repeat constructor] | split; [vm_compute; discriminate | discriminate]]). Qed.
Lemma b_aa_swapped : Swapped (bs "b") (bs "aa").
Proof. exists 0%nat, [], (bs "b"), (bs "aa"). repeat (split; [cbn; reflexivity || lia |]). apply lex_here. reflexivity. Qed.
Lemma agree_refuted : ~ (forall a b, wf_rr a -> wf_rr b -> rr_ord a b = rr_cmp a b).
Proof. intros H. destruct t_txt_wf as [W1 W2]. specialize (H _ _ W1 W2). vm_compute in H. discriminate. Qed.
Lemma ord_sort_refuted : ~ (forall rs n, Forall wf_rr rs -> Forall (fun r => rr_name r = n /\ rr_ty r = 16) rs -> CanonicalOrder (sort_by rr_ord rs)).
Proof.
  intros H. destruct t_txt_wf as [W1 W2]. specialize (H [t_txt "b"; t_txt "aa"] (bs "a.") ltac:(auto) ltac:(repeat constructor)).
  change (sort_by rr_ord [t_txt "b"; t_txt "aa"]) with [t_txt "aa"; t_txt "b"] in H. inversion H as [| ? ? _ F]; subst. inversion F as [| ? ? Le _]; subst.
  apply rdata_le in Le; auto. apply octets_le_cmp in Le. vm_compute in Le. congruence.
Qed.
