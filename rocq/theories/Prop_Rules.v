(** Property C87: the rules of RFC 4035 5.3.1 for using an RRSIG. *)
From Verif Require Import Base NameM WireM RRM SerM ValM NameSpec RecSpec ValSpec AcceptSpec RulesSpec RulesP ValW OrderW RulesW.
From Coq Require Import String.
Local Open Scope N_scope.

(** C87. Every RRSIG relied on has a key in its zone, times that can be met, a labels field within the owner name (NSEC
    excepted), its zone as the signer (DNSKEY excepted), and an owner name which ends, as text, in the name of the zone. *)
Theorem C87_rules_partial : forall e inp, Forall Held inp -> (forall s, In (RR_RRSig s) inp -> ~ EmptyMaxLabels inp s) ->
  forall fuel v, verify_rr_stream e false fuel inp = Ok v -> forall z s, ReliedOn e inp z s ->
  KeyRule inp z s /\ TimesRule s /\ (rs_ty s <> 47 -> LabelsRule s) /\ (rs_ty s <> 48 -> SignerRule z s) /\ exists p, rs_name s = p ++ z.
Proof. exact relied_rules. Qed.
Print Assumptions C87_rules_partial.
(** The signer's name of an RRSIG over DNSKEYs is not looked at, *)
Theorem C87_signer_refuted : ~ (forall e inp fuel v, Forall Held inp -> (forall s, In (RR_RRSig s) inp -> ~ EmptyMaxLabels inp s) ->
  verify_rr_stream e false fuel inp = Ok v -> forall z s, ReliedOn e inp z s -> SignerRule z s).
Proof. exact signer_refuted. Qed.
Print Assumptions C87_signer_refuted.
(** nor the labels field of one over an NSEC record, *)
Theorem C87_labels_refuted : ~ (forall e inp fuel v, Forall Held inp -> (forall s, In (RR_RRSig s) inp -> ~ EmptyMaxLabels inp s) ->
  verify_rr_stream e false fuel inp = Ok v -> forall z s, ReliedOn e inp z s -> LabelsRule s).
Proof. exact labels_refuted. Qed.
Print Assumptions C87_labels_refuted.
(** nor the label boundary at the start of the zone's name. *)
Theorem C87_zone_refuted : ~ (forall e inp fuel v, Forall Held inp -> (forall s, In (RR_RRSig s) inp -> ~ EmptyMaxLabels inp s) ->
  verify_rr_stream e false fuel inp = Ok v -> forall z s, ReliedOn e inp z s -> ZoneRule z s).
Proof. exact zone_refuted. Qed.
Print Assumptions C87_zone_refuted.
(** One stream with all three faults. *)
Example C87_example :
  Forall Held ru_odd /\ (forall s, In (RR_RRSig s) ru_odd -> ~ EmptyMaxLabels ru_odd s) /\ (exists v, echo ru_odd = Ok v /\ vr_rrs v = [w_a "ba."]) /\
  ReliedOn echo_env ru_odd (bs "a.") (o_rrsig "a." 48 1 "b." [w_key "a."]) /\
  (forall s, In (RR_RRSig s) ru_odd -> rs_key_name s = bs "a." -> ReliedOn echo_env ru_odd (bs "a.") s).
Proof. exact (conj ru_held (conj ru_max (conj ru_ok (conj ru_relied_key ru_relied)))). Qed.
