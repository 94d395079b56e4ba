(** Proofs about the zone loop: the invariant from which C18 and C20-C23 follow. *)
From Verif Require Import Base BaseP NameM WireM RRM ValM NameSpec NameP RecSpec RecP CodecSpec CodecP ValSpec ValP.
From Coq Require Import Permutation Arith.
Local Open Scope N_scope.

(** ** Bridging the filters *)

Lemma rrset_eq inp n t : rrset inp n t = filter (fun r => bytes_eqb (rr_name r) n && (rr_ty r =? t)) inp.
Proof.
  unfold rrset. apply filter_ext. intros r.
  destruct (list_eq_dec N.eq_dec (rr_name r) n) as [E|E].
  - subst. rewrite bytes_eqb_refl. reflexivity.
  - apply bytes_eqb_neq in E. rewrite E. reflexivity.
Qed.
Lemma covered_rrset inp s : covered inp s = rrset inp (rs_name s) (rs_ty s).
Proof. symmetry. apply rrset_eq. Qed.
Lemma zone_keys_rrset inp z : map RR_DnsKey (zone_dnskeys inp z) = rrset inp z 48.
Proof.
  rewrite rrset_eq. unfold zone_dnskeys. induction inp as [|r inp IH]; [reflexivity|].
  cbn [flat_map filter]. rewrite filter_app, map_app, IH.
  destruct r; cbn [as_dnskey rr_name filter app map];
    match goal with |- context [rr_ty ?x =? 48] => change (rr_ty x =? 48) with false || change (rr_ty x =? 48) with true end;
    rewrite ?andb_false_r, ?andb_true_r; try reflexivity.
  destruct (bytes_eqb (dk_name r) z); reflexivity.
Qed.
Lemma in_rrset inp n t r : In r (rrset inp n t) <-> In r inp /\ rr_name r = n /\ rr_ty r = t.
Proof. rewrite rrset_eq, filter_In, andb_true_iff, bytes_eqb_eq, N.eqb_eq. tauto. Qed.
Lemma in_zone_keys inp z k : In k (zone_dnskeys inp z) <-> In (RR_DnsKey k) (rrset inp z 48).
Proof.
  rewrite <- zone_keys_rrset, in_map_iff. split.
  - intros H. eauto.
  - intros (k' & H & H1). inversion H. subst. auto.
Qed.
Lemma in_rrsigs inp s : In s (rrsigs inp) <-> In (RR_RRSig s) inp.
Proof.
  unfold rrsigs. rewrite in_flat_map. split.
  - intros (r & H1 & H2). destruct r; cbn in H2; try contradiction. destruct H2 as [->|[]]. auto.
  - intros H. exists (RR_RRSig s). split; auto. left. reflexivity.
Qed.
Lemma in_zone_rrsigs inp z s :
  In s (zone_rrsigs inp z) <-> In (RR_RRSig s) inp /\ rs_key_name s = z /\ rs_ty s <> 48.
Proof.
  unfold zone_rrsigs. rewrite filter_In, in_rrsigs, andb_true_iff, bytes_eqb_eq, negb_true_iff, N.eqb_neq. reflexivity.
Qed.
Lemma in_dnskey_rrsigs inp z s :
  In s (dnskey_rrsigs inp z) <-> In (RR_RRSig s) inp /\ rs_name s = z /\ rs_ty s = 48.
Proof.
  unfold dnskey_rrsigs. rewrite filter_In, in_rrsigs, andb_true_iff, bytes_eqb_eq, N.eqb_eq. reflexivity.
Qed.
Lemma as_ds_of r : as_ds r = ds_of r.
Proof. reflexivity. Qed.
Lemma root_hints_anchors : root_hints = root_anchors.
Proof. vm_compute. reflexivity. Qed.

Lemma held_rrset inp n t : Forall Held inp -> Forall Held (rrset inp n t).
Proof. rewrite !Forall_forall. intros H r Hr. apply in_rrset in Hr. apply H. tauto. Qed.
Lemma held_keys inp z : Forall Held inp -> Forall (fun k => is_bytes (dk_pubkey k)) (zone_dnskeys inp z).
Proof.
  rewrite !Forall_forall. intros H k Hk. apply in_zone_keys, in_rrset in Hk as [Hk _].
  apply H in Hk. unfold Held in Hk. cbn [typed_rr] in Hk. tauto.
Qed.
Lemma held_rrsig inp s : Forall Held inp -> In (RR_RRSig s) inp -> held_sig s.
Proof. rewrite Forall_forall. intros H Hs. apply H. auto. Qed.

(** ** The DNSKEY RRset *)

Lemma digest_input_id k : is_u16 (dk_flags k) -> dnskey_digest_input k = key_id k.
Proof. intros H. unfold dnskey_digest_input, key_id. rewrite be16_u16 by exact H. reflexivity. Qed.

Lemma ds_matches_spec e dss k : is_u16 (dk_flags k) ->
  (existsb (ds_matches e (trust_sha1 dss) k) dss = true <-> DelegatedKey e dss k).
Proof.
  intros Hf. rewrite existsb_exists. unfold DelegatedKey.
  assert (T : trust_sha1 dss = true <-> Forall (fun d' => ds_digest_type d' <> 2 /\ ds_digest_type d' <> 4) dss).
  { unfold trust_sha1. rewrite forallb_forall, Forall_forall.
    split; intros H d Hd; specialize (H d Hd); revert H; rewrite andb_true_iff, !negb_true_iff, !N.eqb_neq; auto. }
  assert (M : forall d, ds_matches e (trust_sha1 dss) k d = true <->
    ds_alg d = dk_alg k /\ ds_key_tag d = key_tag k /\
    ((ds_digest_type d = 2 /\ ds_digest d = e_sha256 e (key_id k)) \/
     (ds_digest_type d = 1 /\ ds_digest d = e_sha1 e (key_id k) /\
      Forall (fun d' => ds_digest_type d' <> 2 /\ ds_digest_type d' <> 4) dss))).
  { intros d. unfold ds_matches. rewrite digest_input_id by exact Hf.
    rewrite !andb_true_iff, !N.eqb_eq.
    destruct (ds_digest_type d =? 1) eqn:E1.
    - apply N.eqb_eq in E1. rewrite E1. destruct (trust_sha1 dss) eqn:Et; cbn [andb].
      + rewrite bytes_eqb_eq. split.
        * intros [[H1 H2] H3]. repeat split; auto. right. repeat split; auto. apply T; auto.
        * intros (H1 & H2 & [[H3 _]|(_ & H3 & _)]); [discriminate|]. auto.
      + change (1 =? 2) with false. split.
        * intros [_ H]. discriminate.
        * intros (H1 & H2 & [[H3 _]|(_ & _ & H3)]); [discriminate|]. apply T in H3. discriminate.
    - apply N.eqb_neq in E1. cbn [andb]. destruct (ds_digest_type d =? 2) eqn:E2.
      + apply N.eqb_eq in E2. rewrite bytes_eqb_eq. split.
        * intros [[H1 H2] H3]. repeat split; auto.
        * intros (H1 & H2 & [[_ H3]|(H3 & _)]); [|contradiction]. auto.
      + apply N.eqb_neq in E2. split; [intros [_ H]; discriminate|].
        intros (_ & _ & [[H3 _]|(H3 & _)]); contradiction. }
  split; intros (d & H1 & H2); exists d; (split; [exact H1|]); apply M; exact H2.
Qed.

Lemma verify_dnskey_sigs_ok e dbg sigs keys records b s :
  verify_dnskey_sigs e dbg sigs keys records b = Ok s ->
  In s sigs /\ verify_rrsig e dbg s keys (map RR_DnsKey records) = Ok tt.
Proof.
  revert b. induction sigs as [|x sigs IH]; intros b; cbn [verify_dnskey_sigs]; [discriminate|].
  destruct (verify_rrsig e dbg x keys (map RR_DnsKey records)) as [[]|[]| |] eqn:E; try discriminate.
  - intros H. assert (x = s) by congruence. subst. split; [left; auto|auto].
  - intros H. apply IH in H as [H1 H2]. split; [right; auto|auto].
Qed.

Lemma verify_dnskeys_ok e dbg inp z dss s : Forall Held inp ->
  verify_dnskeys e dbg (dnskey_rrsigs inp z) dss (zone_dnskeys inp z) = Ok s ->
  exists k, In (RR_DnsKey k) (rrset inp z 48) /\ DelegatedKey e dss k /\
    In (RR_RRSig s) inp /\ rs_name s = z /\ rs_ty s = 48 /\ SigBy e k s (rrset inp z 48).
Proof.
  intros Hi. unfold verify_dnskeys. destruct (is_nil dss); [discriminate|].
  destruct (negb _); [discriminate|]. intros H. apply verify_dnskey_sigs_ok in H as [H1 H2].
  apply in_dnskey_rrsigs in H1 as (H1 & H3 & H4).
  rewrite zone_keys_rrset in H2. apply verify_rrsig_sigby in H2.
  - destruct H2 as (k & H5 & H6). unfold validated_dnskeys in H5. apply filter_In in H5 as [H5 H7].
    apply in_zone_keys in H5.
    assert (Hk : is_u16 (dk_flags k)).
    { apply in_rrset in H5 as [H5 _]. eapply Forall_forall in Hi; [|exact H5]. unfold Held in Hi. cbn [typed_rr] in Hi. tauto. }
    exists k. apply ds_matches_spec in H7; auto 10.
  - eapply held_rrsig; eauto.
  - apply held_rrset; auto.
  - unfold validated_dnskeys. pose proof (held_keys inp z Hi) as G. rewrite Forall_forall in *.
    intros k Hk. apply filter_In in Hk. apply G. tauto.
Qed.

Lemma signed_record_err dbg s r x : signed_record dbg s r = Err x -> x = Invalid.
Proof.
  unfold signed_record. cbv zeta. destruct (negb _ && negb _).
  - destruct (labels _ <? _); [cbn [obind]; congruence|]. destruct (trailing_n_labels _ _).
    + cbn [obind]. destruct (dbg && _); congruence.
    + destruct dbg; cbn [obind]; congruence.
  - cbn [obind]. destruct (dbg && _); congruence.
Qed.

(** ** Monotonicity in the set of RRSIGs relied on *)
Section Mono.
  Variables (e : env) (inp : list RR) (u1 u2 : rrsig -> Prop).
  Hypothesis H12 : forall s, u1 s -> u2 s.
  Lemma vouched_mono dss z : KeysVouched e inp u1 dss z -> KeysVouched e inp u2 dss z.
  Proof. intros (k & s & H). exists k, s. intuition. Qed.
  Lemma signed_mono z s : SignedByZone e inp u1 z s -> SignedByZone e inp u2 z s.
  Proof. intros (H1 & H2 & H3). split; auto. Qed.
  Lemma trusted_mono z : TrustedZone e inp u1 z -> TrustedZone e inp u2 z.
  Proof.
    induction 1.
    - apply TZ_root. apply vouched_mono; auto.
    - eapply TZ_child; eauto using signed_mono, vouched_mono.
  Qed.
End Mono.

(** ** The invariant *)
Section Inv.
  Variables (e : env) (dbg : bool) (inp : list RR).
  Hypothesis Hheld : Forall Held inp.

  Definition supported (a : N) : Prop := In a [8; 10; 13; 14; 15].

  (** What the loop has done for an RRSIG [s] of a visited zone. *)
  Definition SigDone (used : list rrsig) (visited : list (list N)) (st : vstate) (s : rrsig) : Prop :=
    ends_with (rs_name s) (rs_key_name s) = true /\
    (~ supported (rs_alg s) \/
     (In s used /\ (exists k, In (RR_DnsKey k) (rrset inp (rs_key_name s) 48) /\ SigBy e k s (rrset inp (rs_name s) (rs_ty s))) /\
      ((rs_ty s = 43 /\ (In (rs_name s) visited \/ In (rs_name s) (map fst (v_pending st)))) \/
       (rs_ty s <> 43 /\ rs_ty s <> 46 /\ rs_ty s <> 48 /\
        (forall r, In r (rrset inp (rs_name s) (rs_ty s)) -> In r (v_res st)) /\
        (exists nd, wildcard_need dbg s = Ok nd /\ forall n, In n nd -> In n (v_needs st)))))).

  Definition from_sig (used : list rrsig) (s : rrsig) : Prop :=
    exists z, TrustedZone e inp (fun x => In x used) z /\ SignedByZone e inp (fun x => In x used) z s /\
      ends_with (rs_name s) z = true.

  Record INV (used : list rrsig) (visited : list (list N)) (done : list rrsig) (st : vstate) : Prop := {
    i_used : forall s, In s used -> In (RR_RRSig s) inp /\
      exists z k, TrustedZone e inp (fun x => In x used) z /\ In (RR_DnsKey k) (rrset inp z 48) /\
        SigBy e k s (rrset inp (rs_name s) (rs_ty s));
    i_inc : v_inception st = fold_right N.max 0 (map (fun s => resolve_time (rs_inception s)) used);
    i_exp : v_expiry st = fold_right N.min (2 ^ 64 - 1) (map (fun s => resolve_time (rs_expiration s)) used);
    i_ttl : v_ttl st = fold_right N.min (2 ^ 32 - 1) (map rs_orig_ttl used);
    i_pend : forall z dss, In (z, dss) (v_pending st) -> dss = flat_map ds_of (rrset inp z 43) /\
      exists s, rs_name s = z /\ rs_ty s = 43 /\ from_sig used s;
    i_res : forall r, In r (v_res st) -> exists s, from_sig used s /\ In r (rrset inp (rs_name s) (rs_ty s)) /\
      rs_ty s <> 43 /\ rs_ty s <> 46 /\ rs_ty s <> 48 /\
      (exists nd, wildcard_need dbg s = Ok nd /\ forall n, In n nd -> In n (v_needs st));
    i_nodup : NoDup (v_res st);
    i_needs : forall n, In n (v_needs st) -> exists s, from_sig used s /\ wildcard_need dbg s = Ok [n];
    i_visited : forall z, In z visited -> TrustedZone e inp (fun x => In x used) z;
    i_done : forall s, In s done -> SigDone used visited st s }.

  Lemma from_sig_mono u1 u2 s : (forall x, In x u1 -> In x u2) -> from_sig u1 s -> from_sig u2 s.
  Proof.
    intros H (z & H1 & H2 & H3). exists z. split; [|split; auto].
    - eapply trusted_mono; [|exact H1]. exact H.
    - eapply signed_mono; [|exact H2]. exact H.
  Qed.

  Lemma inv_init : INV [] [] [] vinit.
  Proof.
    constructor; cbn; try tauto; try reflexivity. constructor.
  Qed.

  (** Recording a signature. *)
  Lemma inv_note used visited done st s :
    INV used visited done st -> In (RR_RRSig s) inp ->
    (exists z k, TrustedZone e inp (fun x => In x (s :: used)) z /\ In (RR_DnsKey k) (rrset inp z 48) /\
        SigBy e k s (rrset inp (rs_name s) (rs_ty s))) ->
    INV (s :: used) visited done (note_sig s st).
  Proof.
    intros I Hs Hz. destruct I.
    assert (M : forall x, In x used -> In x (s :: used)) by (intros; right; auto).
    constructor; cbn [note_sig v_inception v_expiry v_ttl v_pending v_res v_needs map fold_right]; auto.
    - intros x [<-|Hx]; auto. destruct (i_used0 x Hx) as (H1 & z & k & H2 & H3 & H4). split; auto.
      exists z, k. split; auto. eapply trusted_mono; [|exact H2]; auto.
    - rewrite i_inc0. apply N.max_comm.
    - rewrite i_exp0. apply N.min_comm.
    - rewrite i_ttl0. apply N.min_comm.
    - intros z dss H. destruct (i_pend0 z dss H) as (H1 & x & H2 & H3 & H4). split; auto.
      exists x. repeat split; auto. eapply from_sig_mono; [|exact H4]; auto.
    - intros r H. destruct (i_res0 r H) as (x & H1 & H2). exists x. split; auto. eapply from_sig_mono; [|exact H1]; auto.
    - intros n H. destruct (i_needs0 n H) as (x & H1 & H2). exists x. split; auto. eapply from_sig_mono; [|exact H1]; auto.
    - intros z H. eapply trusted_mono; [|apply i_visited0; auto]; auto.
    - intros x H. destruct (i_done0 x H) as (H1 & H2). split; auto.
      destruct H2 as [H2|(H2 & H3)]; [left; auto|right]. split; [right; auto|exact H3].
  Qed.

  Lemma check_sig_unsupported s k msg : check_sig e s k msg = Err UnsupportedAlgorithm -> ~ supported (rs_alg s).
  Proof.
    unfold check_sig. cbv zeta. intros H.
    destruct (rs_alg s =? 8) eqn:E8; [|destruct (rs_alg s =? 10) eqn:E10]; cbn [orb] in H;
      try (destruct (bytes_to_rsa_pk _) as [[]|]; [destruct (e_sig _ _ _ _ _)|]; discriminate).
    destruct (rs_alg s =? 13) eqn:E13; [|destruct (rs_alg s =? 14) eqn:E14]; cbn [orb] in H;
      try (destruct (e_sig _ _ _ _ _); discriminate).
    destruct (rs_alg s =? 15) eqn:E15; try (destruct (e_sig _ _ _ _ _); discriminate).
    apply N.eqb_neq in E8, E10, E13, E14, E15. cbn. intuition congruence.
  Qed.
  Lemma signed_records_err s rs x : signed_records dbg s rs = Err x -> x = Invalid.
  Proof.
    revert x. induction rs as [|r rs IH]; intros x; cbn [signed_records]; [discriminate|].
    unfold obind at 1. destruct (signed_record dbg s r) eqn:E; intros H; try discriminate.
    - unfold obind in H. destruct (signed_records dbg s rs); try discriminate. inversion H; subst. apply IH. auto.
    - inversion H; subst. eapply signed_record_err; eauto.
  Qed.
  Lemma verify_rrsig_unsupported s keys rs :
    verify_rrsig e dbg s keys rs = Err UnsupportedAlgorithm -> ~ supported (rs_alg s).
  Proof.
    unfold verify_rrsig. destruct (existsb _ rs); [discriminate|].
    rewrite verify_with_keys_spec. intros [[_ H]|(k & H1 & H)]; [discriminate|].
    unfold obind in H. destruct (signed_records dbg s (sort_by rr_cmp rs)) eqn:E; try discriminate.
    - symmetry in H. eapply check_sig_unsupported; eauto.
    - apply signed_records_err in E. congruence.
  Qed.

  Lemma in_add_records r rs res : In r (add_records rs res) <-> In r rs \/ In r res.
  Proof.
    unfold add_records. revert res. induction rs as [|x rs IH]; intros res; cbn [fold_left].
    - cbn. tauto.
    - rewrite IH. destruct (existsb (rr_eqb x) res) eqn:E.
      + apply existsb_exists in E as (y & H1 & H2). unfold rr_eqb in H2. destruct (rr_eq_dec x y); [|discriminate].
        subst y. cbn. intuition (subst; auto).
      + rewrite in_app_iff. cbn. tauto.
  Qed.
  Lemma nodup_add_records rs res : NoDup res -> NoDup (add_records rs res).
  Proof.
    unfold add_records. revert res. induction rs as [|x rs IH]; intros res H; cbn [fold_left]; auto.
    apply IH. destruct (existsb (rr_eqb x) res) eqn:E; auto.
    apply Permutation_NoDup with (l := x :: res); [apply Permutation_cons_append|].
    constructor; auto. intros Hx.
    rewrite existsb_false in E. specialize (E x Hx). unfold rr_eqb in E. destruct (rr_eq_dec x x); congruence.
  Qed.

  Lemma wildcard_need_shape s nd n : wildcard_need dbg s = Ok nd -> In n nd -> nd = [n].
  Proof.
    unfold wildcard_need. destruct (negb _ && negb _); [|intros H; inversion H; contradiction].
    destruct (rs_ty s =? T_NSEC3); [discriminate|]. destruct (dbg && _); [discriminate|].
    destruct (trailing_n_labels _ _); [|discriminate]. intros H. inversion H; subst. intros [->|[]]. reflexivity.
  Qed.

  Lemma SigDone_mono used visited visited' st st' s :
    SigDone used visited st s ->
    (forall z, In z visited \/ In z (map fst (v_pending st)) -> In z visited' \/ In z (map fst (v_pending st'))) ->
    (forall r, In r (v_res st) -> In r (v_res st')) ->
    (forall n, In n (v_needs st) -> In n (v_needs st')) ->
    SigDone used visited' st' s.
  Proof.
    intros (H1 & H2) A B C. split; auto. destruct H2 as [H2|(H2 & H3 & H4)]; [left; auto|right].
    split; auto. split; auto. destruct H4 as [(H4 & H5)|(H4 & H5 & H6 & H7 & nd & H8 & H9)]; [left; auto|right].
    repeat split; auto. exists nd. auto.
  Qed.

  Lemma inv_step used visited done st st' z s :
    INV used visited done st -> TrustedZone e inp (fun x => In x used) z -> In s (zone_rrsigs inp z) ->
    sig_step e dbg inp z s st = Ok st' ->
    exists used', (forall x, In x used -> In x used') /\ INV used' visited (s :: done) st'.
  Proof.
    intros I Tz Hs. apply in_zone_rrsigs in Hs as (Hs & Hk & Hty).
    unfold sig_step. destruct (ends_with (rs_name s) z) eqn:Hz; cbn [negb]; [|discriminate].
    destruct (verify_rrsig e dbg s (zone_dnskeys inp z) (covered inp s)) as [[]|[]| |] eqn:Hv; try discriminate.
    - rewrite covered_rrset in Hv.
      assert (Hsig : exists k, In (RR_DnsKey k) (rrset inp z 48) /\ SigBy e k s (rrset inp (rs_name s) (rs_ty s))).
      { apply verify_rrsig_sigby in Hv; [|eapply held_rrsig; eauto|apply held_rrset; auto|apply held_keys; auto].
        destruct Hv as (k & H1 & H2). exists k. split; auto. apply in_zone_keys; auto. }
      destruct Hsig as (k & Hk1 & Hk2).
      assert (M : forall x, In x used -> In x (s :: used)) by (intros; right; auto).
      assert (Tz' : TrustedZone e inp (fun x => In x (s :: used)) z) by (eapply trusted_mono; [|exact Tz]; auto).
      assert (I' := inv_note _ _ _ _ s I Hs (ex_intro _ z (ex_intro _ k (conj Tz' (conj Hk1 Hk2))))).
      assert (Fs : from_sig (s :: used) s).
      { exists z. repeat split; auto. left; auto. exists k. auto. }
      cbv zeta. destruct ((rs_ty s =? T_RRSIG) || (rs_ty s =? T_DNSKEY)) eqn:Et; [discriminate|].
      apply orb_false_iff in Et as [Et1 Et2]. apply N.eqb_neq in Et1, Et2.
      destruct (rs_ty s =? T_DS) eqn:Ed.
      + apply N.eqb_eq in Ed. intros H. exists (s :: used). split; auto.
        assert (E : st' = push_ds inp s (note_sig s st)) by congruence. subst st'. clear H.
        unfold push_ds. destruct (existsb (fun p => bytes_eqb (fst p) (rs_name s)) (v_pending (note_sig s st))) eqn:Ep.
        * destruct I'. constructor; auto. intros x [<-|Hx]; auto. split; [subst; auto|]. right.
          split; [left; auto|]. split; [exists k; subst z; auto|]. left. split; auto. right.
          apply existsb_exists in Ep as ([n d] & H1 & H2). apply bytes_eqb_eq in H2. cbn [fst] in H2.
          apply in_map_iff. exists (n, d). auto.
        * destruct I'. constructor; auto.
          -- cbn [v_pending]. intros n d [H|H]; [|apply i_pend0; auto].
             inversion H; subst n d. rewrite covered_rrset, Ed. split; [reflexivity|]. exists s. auto.
          -- intros x Hx. assert (Hx' : x = s \/ In x done) by (destruct Hx; auto). clear Hx.
             destruct Hx' as [->|Hx].
             ++ split; [subst; auto|]. right. split; [left; auto|]. split; [exists k; subst z; auto|].
                left. split; auto. right. left. reflexivity.
             ++ eapply SigDone_mono; [apply i_done0; auto| | |]; auto.
                intros n [H|H]; auto. right. right. exact H.
      + apply N.eqb_neq in Ed. intros H. apply obind_ok in H as (nd & Hnd & H).
        exists (s :: used). split; auto.
        assert (E : forall a b : vstate, @Ok verr vstate a = Ok b -> b = a) by (intros; congruence).
        apply E in H. subst st'.
        destruct I'. constructor; auto.
        * cbn [v_res v_needs]. intros r Hr. apply in_add_records in Hr as [Hr|Hr].
          -- exists s. split; auto. rewrite covered_rrset in Hr. repeat split; auto.
             exists nd. split; auto. intros n Hn. apply in_app_iff. auto.
          -- destruct (i_res0 r Hr) as (x & H1 & H2 & H3 & H4 & H5 & nd' & H6 & H7). exists x. repeat split; auto.
             exists nd'. split; auto. intros n Hn. apply in_app_iff. auto.
        * cbn [v_res]. apply nodup_add_records. auto.
        * cbn [v_needs]. intros n Hn. apply in_app_iff in Hn as [Hn|Hn]; auto.
          exists s. split; auto. rewrite <- (wildcard_need_shape s nd n Hnd Hn). auto.
        * intros x [<-|Hx].
          -- split; [subst; auto|]. right. split; [left; auto|]. split; [exists k; subst z; auto|].
             right. repeat split; auto.
             ++ intros r Hr. cbn [v_res]. apply in_add_records. left. rewrite covered_rrset. auto.
             ++ exists nd. split; auto. intros n Hn. cbn [v_needs]. apply in_app_iff. auto.
          -- eapply SigDone_mono; [apply i_done0; auto| | |]; auto.
             ++ intros r Hr. cbn [v_res]. apply in_add_records. auto.
             ++ intros n Hn. cbn [v_needs]. apply in_app_iff. auto.
    - intros H. assert (st' = st) by congruence. subst st'. exists used. split; auto.
      destruct I. constructor; auto. intros x [<-|Hx]; auto. split; [subst; auto|]. left.
      eapply verify_rrsig_unsupported; eauto.
  Qed.

  Lemma inv_sigs z sigs : (forall s, In s sigs -> In s (zone_rrsigs inp z)) -> forall used visited done st st',
    INV used visited done st -> TrustedZone e inp (fun x => In x used) z ->
    sigs_loop e dbg inp z sigs st = Ok st' ->
    exists used' done', INV used' visited done' st' /\ (forall x, In x used -> In x used') /\
      (forall s, In s sigs \/ In s done -> In s done').
  Proof.
    induction sigs as [|s sigs IH]; intros Hin used visited done st st' I Tz H; cbn [sigs_loop] in H.
    - assert (st' = st) by congruence. subst. exists used, done. split; auto. split; auto. intros x [[]|]; auto.
    - apply obind_ok in H as (st1 & H1 & H2).
      destruct (inv_step _ _ _ _ _ _ _ I Tz (Hin s (or_introl eq_refl)) H1) as (u1 & M & I1).
      destruct (IH (fun x Hx => Hin x (or_intror Hx)) u1 visited (s :: done) st1 st' I1) as (u2 & d2 & I2 & M2 & D2); auto.
      { eapply trusted_mono; [|exact Tz]; auto. }
      exists u2, d2. split; auto. split; auto.
      intros x [[<-|Hx]|Hx]; apply D2; [right; left|left|right; right]; auto.
  Qed.

  Definition closed (visited : list (list N)) (done : list rrsig) : Prop :=
    forall z s, In z visited -> In s (zone_rrsigs inp z) -> In s done.

  Lemma inv_zone_key used visited done st st1 nds dss s :
    INV used visited done st -> pop_zone st = (st1, nds) ->
    (if bytes_eqb (v_zone st1) root_name then Some root_hints else nds) = Some dss ->
    verify_dnskeys e dbg (dnskey_rrsigs inp (v_zone st1)) dss (zone_dnskeys inp (v_zone st1)) = Ok s ->
    INV (s :: used) (v_zone st1 :: visited) done (note_sig s st1) /\
    TrustedZone e inp (fun x => In x (s :: used)) (v_zone st1).
  Proof.
    intros I Ep P Hk.
    apply verify_dnskeys_ok in Hk as (k & K1 & K2 & K3 & K4 & K5 & K6); auto.
    set (z := v_zone st1) in *.
    (* the zone is trusted *)
    assert (Hv : KeysVouched e inp (fun x => In x (s :: used)) dss z).
    { exists k, s. split; auto. split; auto. split; auto. split; [left; auto|]. split; auto. }
    assert (M : forall x, In x used -> In x (s :: used)) by (intros; right; auto).
    assert (Tz : TrustedZone e inp (fun x => In x (s :: used)) z).
    { destruct (bytes_eqb z root_name) eqn:Er.
      - apply bytes_eqb_eq in Er. rewrite Er. change root_name with [46]. apply TZ_root.
        assert (dss = root_anchors) by (rewrite <- root_hints_anchors; congruence). subst dss.
        change [46] with root_name. rewrite <- Er. exact Hv.
      - apply bytes_eqb_neq in Er. subst nds. unfold pop_zone in Ep.
        destruct (v_pending st) as [|[n d] rest] eqn:Epn; [inversion Ep|].
        assert (E1 : n = z /\ d = dss).
        { inversion Ep. subst st1. subst z. split; reflexivity. }
        destruct E1 as [-> ->].
        destruct (i_pend _ _ _ _ I z dss) as (Q1 & x & Q2 & Q3 & Q4); [rewrite Epn; left; auto|].
        destruct Q4 as (p & R1 & R2 & R3). subst dss.
        eapply TZ_child with (p := p) (s := x); auto.
        + eapply trusted_mono; [|exact R1]; auto.
        + eapply signed_mono; [|exact R2]; auto. }
    (* popping *)
    assert (I1 : INV used visited done st1 \/ True) by auto.
    assert (Fields : v_res st1 = v_res st /\ v_needs st1 = v_needs st /\ v_inception st1 = v_inception st /\
       v_expiry st1 = v_expiry st /\ v_ttl st1 = v_ttl st /\
       (forall p, In p (v_pending st1) -> In p (v_pending st)) /\
       (forall n, In n (map fst (v_pending st)) -> n = z \/ In n (map fst (v_pending st1)))).
    { unfold pop_zone in Ep. destruct (v_pending st) as [|[n d] rest] eqn:Epn.
      - inversion Ep; subst. rewrite Epn. repeat split; auto.
      - inversion Ep. subst st1. subst z. cbn [v_res v_needs v_inception v_expiry v_ttl v_pending v_zone].
        repeat split; auto.
        + intros p Hp. right. auto.
        + cbn [map fst]. intros m [<-|Hm]; auto. }
    destruct Fields as (F1 & F2 & F3 & F4 & F5 & F6 & F7).
    clear I1. assert (I1 : INV (s :: used) (z :: visited) done (note_sig s st1)).
    { assert (I2 : INV (s :: used) visited done (note_sig s st)).
      { apply inv_note; auto. exists z, k. split; auto. rewrite K4, K5. split; auto. }
      destruct I2. constructor; auto.
      - cbn [note_sig v_inception] in *. rewrite F3. auto.
      - cbn [note_sig v_expiry] in *. rewrite F4. auto.
      - cbn [note_sig v_ttl] in *. rewrite F5. auto.
      - cbn [note_sig v_res v_needs] in *. rewrite F1, F2. auto.
      - cbn [note_sig v_res v_needs] in *. rewrite F1. auto.
      - cbn [note_sig v_res v_needs] in *. rewrite F2. auto.
      - intros n [<-|Hn]; auto.
      - intros x Hx. eapply SigDone_mono; [apply i_done0; auto| | |].
        + cbn [note_sig v_pending]. intros n [Hn|Hn]; [left; right; auto|]. destruct (F7 n Hn) as [->|G]; auto. left. left. auto.
        + cbn [note_sig v_res]. rewrite F1. auto.
        + cbn [note_sig v_needs]. rewrite F2. auto. }
    split; assumption.
  Qed.

  Lemma inv_zone used visited done st st' :
    INV used visited done st -> closed visited done -> zone_step e dbg inp st = Ok st' ->
    exists used' done', INV used' (v_zone (fst (pop_zone st)) :: visited) done' st' /\
      closed (v_zone (fst (pop_zone st)) :: visited) done' /\ used' <> [].
  Proof.
    intros I C. unfold zone_step.
    assert (P : exists dss, let z := v_zone (fst (pop_zone st)) in
              (if bytes_eqb z root_name then Some root_hints else snd (pop_zone st)) = Some dss \/
              (if bytes_eqb z root_name then Some root_hints else snd (pop_zone st)) = None).
    { cbv zeta. destruct (if bytes_eqb _ _ then _ else _) as [d|]; [exists d; auto|exists []; auto]. }
    destruct (pop_zone st) as [st1 nds] eqn:Ep. cbn [fst snd] in *. destruct P as (dss & [P|P]); rewrite P; [|discriminate].
    intros H. apply obind_ok in H as (s & Hk & Hl).
    destruct (inv_zone_key used visited done st st1 nds dss s I Ep P Hk) as (I1 & Tz).
    set (z := v_zone st1) in *.
    destruct (inv_sigs z _ (fun x H => H) _ _ _ _ _ I1 Tz Hl) as (u & d & J1 & J2 & J3).
    exists u, d. split; auto. split.
    - intros n x [<-|Hn] Hx; apply J3; auto. right. eapply C; eauto.
    - intros ->. apply (J2 s). left. auto.
  Qed.

  Lemma inv_loop fuel : forall used visited done st st',
    INV used visited done st -> closed visited done -> (used <> [] /\ In [46] visited \/ v_zone st = [46]) ->
    (v_pending st = [] \/ used <> [] /\ In [46] visited) ->
    zone_loop e dbg inp fuel st = Ok st' ->
    exists used' visited' done', INV used' visited' done' st' /\ closed visited' done' /\ v_pending st' = [] /\
      used' <> [] /\ In [46] visited'.
  Proof.
    induction fuel as [|fuel IH]; intros used visited done st st' I C R P H; cbn [zone_loop] in H.
    - destruct (bytes_eqb (v_zone st) root_name || negb (is_nil (v_pending st))) eqn:E; [discriminate|].
      apply orb_false_iff in E as [E1 E2]. apply bytes_eqb_neq in E1. apply negb_false_iff, is_nil_true in E2.
      assert (st' = st) by congruence. subst. exists used, visited, done.
      destruct R as [[R1 R2]|R]; [auto 10|]. contradiction.
    - destruct (bytes_eqb (v_zone st) root_name || negb (is_nil (v_pending st))) eqn:E.
      + apply obind_ok in H as (st1 & H1 & H2).
        destruct (inv_zone _ _ _ _ _ I C H1) as (u & d & J1 & J2 & J3).
        assert (Rt : In [46] (v_zone (fst (pop_zone st)) :: visited)).
        { destruct P as [P|[_ P]]; [|right; auto]. destruct R as [[_ R]|R]; [right; auto|].
          left. unfold pop_zone. rewrite P. cbn [fst]. auto. }
        eapply IH in H2; eauto.
      + apply orb_false_iff in E as [E1 E2]. apply bytes_eqb_neq in E1. apply negb_false_iff, is_nil_true in E2.
        assert (st' = st) by congruence. subst. exists used, visited, done.
        destruct R as [[R1 R2]|R]; [auto 10|]. contradiction.
  Qed.

  Lemma inv_final fuel st : zone_loop e dbg inp fuel vinit = Ok st ->
    exists used visited done, INV used visited done st /\ closed visited done /\ v_pending st = [] /\
      used <> [] /\ In [46] visited.
  Proof.
    intros H. apply inv_loop with (used := []) (visited := []) (done := []) in H; auto.
    - apply inv_init.
    - intros z s [].
  Qed.
End Inv.
