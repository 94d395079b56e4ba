(** Witnesses for Prop_More. *)
From Verif Require Import Base BaseP NameM WireM RRM SerM ValM NameSpec RecSpec ValSpec ValP ValP2 SignedP ValW OrderW AcceptSpec AcceptW MoreSpec MoreP.
From Coq Require Import String.
Local Open Scope N_scope.

(** A signature with a given validity period and TTL. *)
Definition m_rrsig (nm : string) (ty labels : N) (signer : string) (from till ttl : N) (rs : list RR) : rrsig :=
  let s := {| rs_name := bs nm; rs_ty := ty; rs_alg := 8; rs_labels := labels; rs_orig_ttl := ttl; rs_expiration := till;
              rs_inception := from; rs_key_tag := 20326; rs_key_name := bs signer; rs_signature := [] |} in
  {| rs_name := rs_name s; rs_ty := rs_ty s; rs_alg := rs_alg s; rs_labels := rs_labels s; rs_orig_ttl := rs_orig_ttl s;
     rs_expiration := rs_expiration s; rs_inception := rs_inception s; rs_key_tag := rs_key_tag s; rs_key_name := rs_key_name s;
     rs_signature := match signed_records false s rs with Ok m => sig_prefix s ++ m | _ => [] end |}.
(** One more address; the same stream with a shorter-lived signature over the root's keys, and with both. *)
Definition m_more : list RR := o_plain ++ [w_a "y.a."; RR_RRSig (m_rrsig "y.a." 1 2 "a." 1100000000 1900000000 60 [w_a "y.a."])].
Definition m_short : list RR := RR_RRSig (m_rrsig "." 48 0 "." 1100000000 1900000000 3600 [w_key "."]) :: o_plain.
Definition m_both : list RR := RR_RRSig (m_rrsig "." 48 0 "." 1000000000 2000000000 3600 [w_key "."]) :: m_short.
Ltac m_held_all := unfold m_both, m_short, m_more, o_plain, o_zones; cbn [app]; repeat (apply Forall_cons; [unfold m_rrsig; o_held |]); apply Forall_nil.
Lemma m_more_held : Forall Held m_more.
Proof. m_held_all. Qed.
Lemma m_both_held : Forall Held m_both.
Proof. m_held_all. Qed.
Lemma m_plain_ok : exists v, echo o_plain = Ok v /\ vr_rrs v = [w_a "x.a."] /\ vr_valid_from v = 1000000000 /\ vr_expires v = 2000000000 /\ vr_max_cache_ttl v = 3600.
Proof. eexists. split; [vm_compute; reflexivity |]. vm_compute. auto 10. Qed.
Lemma m_more_ok : exists v, echo m_more = Ok v /\ vr_rrs v = [w_a "x.a."; w_a "y.a."] /\ resolve_name (vr_rrs v) 5 (bs "x.a.") = Ok [w_a "x.a."] /\ vr_valid_from v = 1100000000 /\ vr_expires v = 1900000000 /\ vr_max_cache_ttl v = 60.
Proof. eexists. split; [vm_compute; reflexivity |]. vm_compute. auto 10. Qed.
Lemma m_short_ok : exists v, echo m_short = Ok v /\ vr_valid_from v = 1100000000.
Proof. eexists. split; vm_compute; reflexivity. Qed.
Lemma m_both_ok : exists v, echo m_both = Ok v /\ vr_valid_from v = 1000000000.
Proof. eexists. split; vm_compute; reflexivity. Qed.
Lemma m_more_max s : In (RR_RRSig s) m_more -> ~ EmptyMaxLabels m_more s.
Proof. apply not_max. vm_compute. reflexivity. Qed.
Lemma m_more_kept : incl o_plain m_more /\ KeySigsKept o_plain m_more.
Proof. split; [apply incl_appl, incl_refl | apply append_kept]. Qed.
Lemma window_refuted : ~ (forall e fuel inp inp' v v', Forall Held inp' -> (forall s, In (RR_RRSig s) inp' -> ~ EmptyMaxLabels inp' s) -> incl inp inp' ->
  verify_rr_stream e false fuel inp = Ok v -> verify_rr_stream e false fuel inp' = Ok v' -> NoLonger v v').
Proof.
  intros H. destruct m_short_ok as (v & E & F). destruct m_both_ok as (v' & E' & F').
  destruct (H echo_env 10%nat m_short m_both v v' m_both_held ltac:(apply not_max; vm_compute; reflexivity) ltac:(apply incl_tl, incl_refl) E E') as (L & _).
  rewrite F, F' in L. apply L. reflexivity.
Qed.
