(** Properties C01-C03 and C17: domain names. *)
From Verif Require Import Base NameM NameSpec NameP OrdP ValM.
From Coq Require Import String.
Local Open Scope N_scope.

(** C01. [name_try_from] is [Name::try_from]; the right-hand side only uses [NameSpec]. *)
Theorem C01_name_accepts_exactly : forall s n,
  name_try_from s = Some n <-> acceptable s /\ n = lower s.
Proof. exact name_try_from_spec. Qed.
Print Assumptions C01_name_accepts_exactly.
Example C01_example : name_try_from (bs "Mail.EXAMPLE.") = Some (bs "mail.example.")
  /\ name_try_from (bs "no.dot") = None /\ name_try_from [] = None.
Proof. vm_compute. auto. Qed.

(** C02. *)
Theorem C02_case_insensitive : forall a b, lower a = lower b -> name_try_from a = name_try_from b.
Proof. exact name_try_from_case. Qed.
Print Assumptions C02_case_insensitive.
Theorem C02_reparse_identity : forall s n, name_try_from s = Some n -> name_try_from n = Some n.
Proof. exact name_reparse. Qed.
Print Assumptions C02_reparse_identity.
Example C02_example : lower (bs "A.b.") = lower (bs "a.B.") /\ name_try_from (bs "A.b.") = Some (bs "a.b.").
Proof. vm_compute. auto. Qed.

(** C03. For the name whose labels are [ls] (other than the root, whose text is one empty label). *)
Theorem C03_labels_and_suffixes : forall ls,
  name_try_from (dots ls) = Some (dots ls) -> Forall label_ok ls -> ls <> [] -> ls <> [[]] ->
  labels (dots ls) = N.of_nat (List.length ls) /\
  (forall n, N.of_nat (List.length ls) < n -> trailing_n_labels (dots ls) n = None) /\
  trailing_n_labels (dots ls) 0 = Some (bs ".") /\
  (forall pre suf, ls = pre ++ suf -> suf <> [] ->
     trailing_n_labels (dots ls) (N.of_nat (List.length suf)) = Some (dots suf)).
Proof. exact labels_and_suffixes. Qed.
Print Assumptions C03_labels_and_suffixes.
Theorem C03_root : labels (bs ".") = 0 /\ trailing_n_labels (bs ".") 0 = Some (bs ".") /\
  (forall n, 0 < n -> trailing_n_labels (bs ".") n = None).
Proof. exact root_labels. Qed.
Print Assumptions C03_root.
Theorem C03_suffix_is_name : forall nm n s,
  name_try_from nm = Some nm -> trailing_n_labels nm n = Some s ->
  name_try_from s = Some s /\ exists p, nm = p ++ s.
Proof. exact trailing_valid. Qed.
Print Assumptions C03_suffix_is_name.
Example C03_example : trailing_n_labels (bs "a.b.example.com.") 2 = Some (bs "example.com.")
  /\ labels (bs "a.b.example.com.") = 4.
Proof. vm_compute. auto. Qed.

(** C17. *)
Theorem C17_nsec_order_is_canonical : forall a b,
  Forall (fun l => l <> [] /\ label_ok l) a -> Forall (fun l => l <> [] /\ label_ok l) b ->
  (nsec_ord (dotted a) (dotted b) = Lt <-> canonical_lt a b) /\
  (nsec_ord (dotted a) (dotted b) = Gt <-> canonical_lt b a) /\
  (nsec_ord (dotted a) (dotted b) = Eq <-> map lower a = map lower b).
Proof. exact nsec_ord_canonical. Qed.
Print Assumptions C17_nsec_order_is_canonical.
Theorem C17_nsec_order_total : forall a b c,
  (nsec_ord a b = Eq <-> lower a = lower b) /\
  nsec_ord b a = CompOpp (nsec_ord a b) /\
  (nsec_ord a b = Lt -> nsec_ord b c = Lt -> nsec_ord a c = Lt).
Proof.
  exact (fun a b c => conj (nsec_ord_eq a b) (conj (nsec_ord_antisym a b) (nsec_ord_trans a b c))).
Qed.
Print Assumptions C17_nsec_order_total.
(** The RFC 4034 section 6.1 example list, in order. *)
Example C17_example :
  nsec_ord (bs "example.") (bs "a.example.") = Lt /\ nsec_ord (bs "a.example.") (bs "yljkjljk.a.example.") = Lt /\
  nsec_ord (bs "Z.a.example.") (bs "zABC.a.EXAMPLE.") = Lt /\ nsec_ord (bs "zABC.a.EXAMPLE.") (bs "z.example.") = Lt
  /\ nsec_ord (bs ".") (bs "example.") = Lt.
Proof. vm_compute. auto. Qed.
