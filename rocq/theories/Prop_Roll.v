(** Property C86: zones whose keys are being replaced. *)
From Verif Require Import Base NameM WireM RRM SerM ValM NameSpec RecSpec ValSpec AcceptSpec RollSpec RollP ValW RevokeW RollW.
From Coq Require Import String Permutation.
Local Open Scope N_scope.

(** C86. If the keys of the zones are signed several times, each time by a key for which there is a DS record (the
    double-DS method of RFC 6781 4.1.2), a proof is accepted in every order of its records, with the same records. *)
Theorem C86_roll_partial : forall e inp, Forall Held inp -> SortsNeeds e -> OneKey inp -> AllVouched e inp -> AllCurrent e inp ->
  (forall s, In (RR_RRSig s) inp -> ~ EmptyMaxLabels inp s) -> TwoParams e inp -> OneZone e inp ->
  forall fuel v, verify_rr_stream e false fuel inp = Ok v -> AnyOrder e inp v.
Proof. exact rolled_any_order. Qed.
Print Assumptions C86_roll_partial.
(** Not so for the double-signature method, in which a key signs before there is a DS record for it: its RRSIG must not
    come first. *)
Theorem C86_roll_refuted : ~ (forall e inp, Forall Held inp -> SortsNeeds e -> OneKey inp -> AllSigned e inp -> AllCurrent e inp ->
  (forall s, In (RR_RRSig s) inp -> ~ EmptyMaxLabels inp s) -> TwoParams e inp -> OneZone e inp ->
  forall fuel v, verify_rr_stream e false fuel inp = Ok v -> AnyOrder e inp v).
Proof. exact rolled_refuted. Qed.
Print Assumptions C86_roll_refuted.
(** An old and a new key, with DS records for both, and for the old one only. *)
Example C86_example :
  (Forall Held rl_both /\ SortsNeeds rv_env /\ OneKey rl_both /\ AllVouched rv_env rl_both /\ AllCurrent rv_env rl_both /\
   (forall s, In (RR_RRSig s) rl_both -> ~ EmptyMaxLabels rl_both s) /\ TwoParams rv_env rl_both /\ OneZone rv_env rl_both) /\
  (exists v, verify_rr_stream rv_env false 10 rl_both = Ok v /\ vr_rrs v = [w_a "x.a."]) /\
  (exists v, verify_rr_stream rv_env false 10 (rev rl_both) = Ok v /\ vr_rrs v = [w_a "x.a."]) /\
  AllSigned rv_env rl_one /\ (exists v, verify_rr_stream rv_env false 10 rl_one = Ok v /\ vr_rrs v = [w_a "x.a."]) /\
  verify_rr_stream rv_env false 10 (rev rl_one) = Err Invalid.
Proof.
  assert (O : rl_both = rl_both \/ rl_both = rl_one) by (left; reflexivity).
  exact (conj (conj rl_both_held (conj rv_sorts (conj (rl_one_key _ O) (conj rl_vouched (conj (rl_current _ O) (conj (rl_max _ O) (conj (rl_two _ O) (rl_zone _ O))))))))
    (conj rl_both_ok (conj rl_both_rev (conj rl_signed (conj rl_one_ok rl_one_rev))))).
Qed.
