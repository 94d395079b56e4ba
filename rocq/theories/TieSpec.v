(** Specification for the property about the order in which pending denials are looked for. *)
From Verif Require Import Base RRM ValM NameSpec ValSpec OrderSpec.
From Coq Require Import Permutation Sorted.
Local Open Scope N_scope.

(** The libraries agree on every hash and signature; they may differ in how they sort. *)
Definition SameCrypto (e e' : env) : Prop :=
  (forall x, e_sha1 e x = e_sha1 e' x) /\ (forall x, e_sha256 e x = e_sha256 e' x) /\
  (forall a pk m sg, e_sig e a pk m sg = e_sig e' a pk m sg).
(** The library sorts: it returns its argument with the names in canonical order. Where elements with
    the same name end up is left open, as [sort_unstable_by] does. *)
Definition SortsByName (e : env) : Prop := forall l, Permutation l (e_sort_needs e l) /\
  Sorted (fun a b => ~ name_lt (fst (fst b)) (fst (fst a))) (e_sort_needs e l).

(** The next closer name of the answers [s] signs: one label more than the wildcard's parent. With a
    count of 255 labels (which no name with records has) one more is none. *)
Definition NextCloserOf (s : rrsig) (nc : list N) : Prop :=
  (exists pre l suf, LabelsOf (rs_name s) (pre ++ l :: suf) /\ N.of_nat (length suf) = rs_labels s /\ nc = dotted (l :: suf)) \/
  (rs_labels s = 255 /\ nc = dotted []).
(** Where two signatures need the same name denied, one zone has made both. *)
Definition OneSigner (inp : list RR) : Prop := forall s s', In (RR_RRSig s) inp -> In (RR_RRSig s') inp ->
  Expanded s -> Expanded s' -> forall nc, NextCloserOf s nc -> NextCloserOf s' nc -> rs_key_name s = rs_key_name s'.

(** The signed, usable NSEC3 records from which a zone signing a wildcard answer could take a denial
    have at most two sets of parameters. *)
Definition TwoN3Params (inp : list RR) : Prop := forall s, In (RR_RRSig s) inp -> Expanded s -> exists p q : N * list N,
  forall n s' pre, In (RR_NSec3 n) inp -> In (RR_RRSig s') inp -> rs_ty s' = 50 -> rs_name s' = n3_name n ->
    n3_name n = pre ++ rs_key_name s -> n3_algo n = 1 -> n3_iters n <= 2500 ->
    (n3_iters n, n3_salt n) = p \/ (n3_iters n, n3_salt n) = q.
