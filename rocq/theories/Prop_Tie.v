(** Properties C82 and C31: the order in which denials are looked for, and the order of the data. *)
From Verif Require Import Base NameM WireM RRM SerM ValM NameSpec RecSpec ValSpec OrderSpec TieSpec TieP TieP2 ValW OrderW AcceptW TieW.
From Coq Require Import String Permutation.
Local Open Scope N_scope.

(** C82. The pending denials are sorted by name only, with an unstable sort, and a found denial takes
    the others of the same name with it. The verdict does not depend on what the sort does with equal
    names (nor on what it does at all) if wildcard answers with the same next closer name have one signer. *)
Theorem C82_ties_partial : forall e e' dbg fuel inp, Forall Held inp -> SameCrypto e e' -> SortsNeeds e -> SortsNeeds e' -> OneSigner inp ->
  verify_rr_stream e dbg fuel inp = verify_rr_stream e' dbg fuel inp.
Proof. exact ties. Qed.
Print Assumptions C82_ties_partial.
(** In general it does: two correct sorts, one input, two verdicts. *)
Theorem C82_ties_refuted : ~ (forall e e' inp, Forall Held inp -> SameCrypto e e' -> SortsByName e -> SortsByName e' ->
  verify_rr_stream e false 10 inp = verify_rr_stream e' false 10 inp).
Proof. exact ties_refuted. Qed.
Print Assumptions C82_ties_refuted.
Example C82_example :
  (Forall Held t_mix /\ SameCrypto n3_env n3_rev /\ SortsNeeds n3_env /\ SortsNeeds n3_rev /\ OneSigner t_mix) /\
  (exists v, verify_rr_stream n3_env false 10 t_mix = Ok v /\ vr_rrs v = [w_a "y."; w_a "x.a."]) /\
  (exists v, verify_rr_stream n3_rev false 10 t_mix = Ok v /\ vr_rrs v = [w_a "y."; w_a "x.a."]) /\
  verify_rr_stream t_first false 10 t_two = Err Invalid /\ exists v, verify_rr_stream t_second false 10 t_two = Ok v /\ vr_rrs v = [w_a "x.a."].
Proof.
  destruct n3_rev_same as [A B]. destruct t_mix_ok as [C _].
  exact (conj (conj t_mix_held (conj A (conj n3_sorts (conj B t_mix_signer)))) (conj C (conj t_mix_rev (conj t_two_first t_two_second)))).
Qed.

(** C31. The records may be moved around freely if RRSIGs and DNSKEYs keep their order, wildcard answers
    with the same next closer name have one signer, and at most two sets of NSEC3 parameters occur. *)
Theorem C31_data_order_partial : forall e dbg fuel inp inp', Forall Held inp -> SortsNeeds e ->
  Permutation inp inp' -> sigs_of inp = sigs_of inp' -> keys_of inp = keys_of inp' ->
  OneSigner inp -> TwoN3Params inp -> SameVerdict (verify_rr_stream e dbg fuel inp) (verify_rr_stream e dbg fuel inp').
Proof. exact verdict_order_wide. Qed.
Print Assumptions C31_data_order_partial.
(** Neither condition can be left out. *)
Theorem C31_signer_refuted : ~ (forall e inp inp', Forall Held inp -> SortsNeeds e ->
  Permutation inp inp' -> sigs_of inp = sigs_of inp' -> keys_of inp = keys_of inp' ->
  TwoN3Params inp -> SameVerdict (verify_rr_stream e false 10 inp) (verify_rr_stream e false 10 inp')).
Proof. exact signer_refuted. Qed.
Print Assumptions C31_signer_refuted.
Theorem C31_params_refuted : ~ (forall e inp inp', Forall Held inp -> SortsNeeds e ->
  Permutation inp inp' -> sigs_of inp = sigs_of inp' -> keys_of inp = keys_of inp' ->
  OneSigner inp -> SameVerdict (verify_rr_stream e false 10 inp) (verify_rr_stream e false 10 inp')).
Proof. exact params_refuted. Qed.
Print Assumptions C31_params_refuted.
Example C31_data_example :
  (Forall Held t_mix /\ SortsNeeds n3_env /\ (Permutation t_mix t_mix' /\ sigs_of t_mix = sigs_of t_mix' /\ keys_of t_mix = keys_of t_mix') /\ OneSigner t_mix /\ TwoN3Params t_mix) /\
  ((exists v, verify_rr_stream n3_env false 10 t_mix = Ok v /\ vr_rrs v = [w_a "y."; w_a "x.a."]) /\
   (exists v, verify_rr_stream n3_env false 10 t_mix' = Ok v /\ vr_rrs v = [w_a "y."; w_a "x.a."])).
Proof. exact (conj (conj t_mix_held (conj n3_sorts (conj t_mix_perm (conj t_mix_signer t_mix_params)))) t_mix_ok). Qed.
