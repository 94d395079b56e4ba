(** Property C76: the two orders of records, [partial_cmp] (rr_cmp) and [cmp] (rr_ord). *)
From Verif Require Import Base RRM SerM RecSpec SignedSpec NameSpec ValW OrdM OrdSpec OrdRR OrdP2 OrdW.
From Coq Require Import String.
Local Open Scope N_scope.

(** C76. Each is a total order which calls equal what is equal ... *)
Theorem C76_partial_total : TotalOrder rr_cmp.
Proof. exact partial_total. Qed.
Print Assumptions C76_partial_total.
Theorem C76_ord_total : TotalOrder rr_ord.
Proof. exact ord_total. Qed.
Print Assumptions C76_ord_total.
(** ... but, though [Ord] demands it, they are not the same. *)
Theorem C76_agree_refuted : ~ (forall a b, wf_rr a -> wf_rr b -> rr_ord a b = rr_cmp a b).
Proof. exact agree_refuted. Qed.
Print Assumptions C76_agree_refuted.
(** They differ for just these pairs of TXT records. *)
Theorem C76_agree_partial : forall a b, rr_ord a b <> rr_cmp a b <->
  exists n x y, a = RR_Txt {| tx_name := n; tx_data := x |} /\ b = RR_Txt {| tx_name := n; tx_data := y |} /\ (Swapped x y \/ Swapped y x).
Proof. exact orders_differ. Qed.
Print Assumptions C76_agree_partial.
Example C76_example : Swapped (bs "b") (bs "aa") /\ rr_cmp (t_txt "b") (t_txt "aa") = Lt /\ rr_ord (t_txt "b") (t_txt "aa") = Gt /\
  rr_cmp (t_txt "ab") (t_txt "b") = Gt /\ rr_ord (t_txt "ab") (t_txt "b") = Lt /\ rr_ord (t_txt "ab") (t_txt "bb") = rr_cmp (t_txt "ab") (t_txt "bb").
Proof. split; [exact b_aa_swapped |]. vm_compute. auto. Qed.

(** The signed data are right only because [sort_unstable] compares with [lt], from [PartialOrd]: sorted by [Ord], a TXT
    RRset may not be in canonical order, ... *)
Theorem C76_ord_sort_refuted : ~ (forall rs n, Forall wf_rr rs -> Forall (fun r => rr_name r = n /\ rr_ty r = 16) rs -> CanonicalOrder (sort_by rr_ord rs)).
Proof. exact ord_sort_refuted. Qed.
Print Assumptions C76_ord_sort_refuted.
(** ... and all is the same where there is no such pair. *)
Theorem C76_ord_sort_partial : forall rs,
  (forall n x y, In (RR_Txt {| tx_name := n; tx_data := x |}) rs -> In (RR_Txt {| tx_name := n; tx_data := y |}) rs -> ~ Swapped x y) ->
  sort_by rr_ord rs = sort_by rr_cmp rs.
Proof. exact sort_agree. Qed.
Print Assumptions C76_ord_sort_partial.
Example C76_ord_sort_example : sort_by rr_ord [t_txt "b"; t_txt "aa"] = [t_txt "aa"; t_txt "b"] /\ sort_by rr_cmp [t_txt "b"; t_txt "aa"] = [t_txt "b"; t_txt "aa"] /\
  sort_by rr_ord [t_txt "b"; t_txt "bb"; t_txt "a"] = [t_txt "a"; t_txt "b"; t_txt "bb"].
Proof. vm_compute. auto. Qed.
