(** Signed bytes, canonical order, delegation digests, unsupported algorithms, bounded work
    (C19, C26-C32). *)
From Verif Require Import Base BaseP NameM WireM RRM SerM ValM NameSpec NameP WireSpec RecSpec RecP RecP2 CodecSpec CodecP ValSpec
  SignedSpec SignedP ValP ValP2 ValP3 ValP4 HeldP OrdRR.
From Coq Require Import Permutation Sorted Arith.
Local Open Scope N_scope.

(** ** Canonical order *)

Lemma insert_min x l : Forall (rr_le x) l -> insert_by rr_cmp x l = x :: l.
Proof.
  intros H. destruct l as [|y l]; [reflexivity|]. cbn [insert_by]. inversion H as [|? ? Hy _]; subst.
  unfold rr_le in Hy. destruct (rr_cmp x y); congruence.
Qed.
Lemma sort_of_sorted l : StronglySorted rr_le l -> sort_by rr_cmp l = l.
Proof. induction 1 as [|x l S IH H]; cbn [sort_by]; [reflexivity|]. rewrite IH. apply insert_min; auto. Qed.

Lemma rdata_of r data : wf_rr r -> (RDataOf r data <-> data = rdata r).
Proof.
  intros Hw. destruct (write_data_canon r Hw) as (d & E & L & _ & R & C).
  assert (D : rdata r = d).
  { unfold rdata. rewrite E. destruct (u16 (len d)) as [|a [|b [|c t]]] eqn:U; try (unfold u16 in U; discriminate). reflexivity. }
  split.
  - intros [R' C']. rewrite D. exact (rdata_unique _ _ _ _ _ R' C' R C).
  - intros ->. rewrite D. split; auto.
Qed.
Lemma rdata_le a b : wf_rr a -> wf_rr b -> (RDataLe a b <-> octets_le (rdata a) (rdata b)).
Proof.
  intros Ha Hb. unfold RDataLe, octets_le. split.
  - intros (da & db & Da & Db & H). apply rdata_of in Da, Db; auto. subst. exact H.
  - intros H. exists (rdata a), (rdata b). split; [apply rdata_of; auto|]. split; [apply rdata_of; auto|exact H].
Qed.
Lemma rr_le_rdata a b : wf_rr a -> wf_rr b -> rr_name a = rr_name b -> rr_ty a = rr_ty b -> plain_type (rr_ty a) ->
  (rr_le a b <-> RDataLe a b).
Proof.
  intros Ha Hb Hn Ht Hp. rewrite rdata_le by auto. rewrite <- octets_le_cmp. unfold rr_le.
  rewrite (rr_cmp_rdata proper_name a b); [reflexivity|apply Ha|apply Hb|auto|auto|auto].
Qed.
Lemma sorted_iff (R S : RR -> RR -> Prop) l : (forall a b, In a l -> In b l -> (R a b <-> S a b)) ->
  (StronglySorted R l <-> StronglySorted S l).
Proof.
  induction l as [|x l IH]; intros H; [split; constructor|].
  assert (IH' : StronglySorted R l <-> StronglySorted S l) by (apply IH; intros; apply H; right; auto).
  split; intros G; inversion G as [|? ? G1 G2]; subst; constructor; try (apply IH'; exact G1);
    rewrite Forall_forall in *; intros y Hy; apply H; auto using in_eq, in_cons.
Qed.
Lemma canonical_sort rs n ty ordered : Forall wf_rr rs -> Forall (fun r => rr_name r = n /\ rr_ty r = ty) rs -> plain_type ty ->
  (Permutation rs ordered /\ CanonicalOrder ordered <-> ordered = sort_by rr_cmp rs).
Proof.
  intros Hw Hn Hp.
  assert (K : forall l, Permutation rs l -> (CanonicalOrder l <-> StronglySorted rr_le l)).
  { intros l Pl. apply sorted_iff. intros a b Ha Hb.
    assert (A : forall x, In x l -> wf_rr x /\ rr_name x = n /\ rr_ty x = ty).
    { intros x Hx. apply (Permutation_in x (Permutation_sym Pl)) in Hx. rewrite Forall_forall in *. auto. }
    apply A in Ha as (A1 & A2 & A3). apply A in Hb as (B1 & B2 & B3).
    symmetry. apply rr_le_rdata; auto; congruence. }
  split.
  - intros [P C]. apply (K _ P) in C. apply sort_of_sorted in C. rewrite <- C. symmetry. apply sort_unique. exact P.
  - intros ->. split; [apply sort_perm|]. apply K; [apply sort_perm|apply sort_sorted].
Qed.

(** ** Signed bytes *)
Lemma verify_rrsig_wire e s keys rs : Held (RR_RRSig s) -> proper_name (rs_key_name s) -> Forall wf_rr rs ->
  Forall (fun k => is_bytes (dk_pubkey k)) keys ->
  (verify_rrsig e false s keys rs = Ok tt <->
   Forall (fun r => rr_ty r = rs_ty s) rs /\
   exists k msg, FirstKey s keys k /\ SignedWire s (sort_by rr_cmp rs) msg /\ CryptoOk e s k msg).
Proof.
  intros Hs Hk Hr Hks. rewrite verify_rrsig_spec; auto.
  2:{ eapply Forall_impl; [|exact Hr]. apply wf_held. }
  assert (Hr' : Forall wf_rr (sort_by rr_cmp rs)) by (rewrite <- (sort_perm rr_cmp rs); auto).
  split; (intros (H1 & k & m & H2 & H3 & H4); split; [exact H1|]; exists k, m; split; [exact H2|]; split; [|exact H4];
    apply (signed_wire s _ m Hk Hr'); exact H3).
Qed.
Lemma verify_rrsig_exact e s keys rs n : Held (RR_RRSig s) -> proper_name (rs_key_name s) -> Forall wf_rr rs ->
  Forall (fun k => is_bytes (dk_pubkey k)) keys -> Forall (fun r => rr_name r = n) rs -> plain_type (rs_ty s) ->
  (verify_rrsig e false s keys rs = Ok tt <->
   Forall (fun r => rr_ty r = rs_ty s) rs /\
   exists k msg ordered, FirstKey s keys k /\ Permutation rs ordered /\ CanonicalOrder ordered /\
     SignedWire s ordered msg /\ CryptoOk e s k msg).
Proof.
  intros Hs Hk Hr Hks Hn Hp. rewrite verify_rrsig_wire by auto.
  split; intros (H1 & k & H); split; auto.
  all: assert (Hnt : Forall (fun r => rr_name r = n /\ rr_ty r = rs_ty s) rs) by (rewrite Forall_forall in *; auto).
  - destruct H as (m & A & B & C). exists k, m, (sort_by rr_cmp rs).
    destruct (proj2 (canonical_sort rs n _ _ Hr Hnt Hp) eq_refl). auto.
  - destruct H as (m & o & A & B & C & D & E). exists k, m.
    rewrite <- (proj1 (canonical_sort rs n _ _ Hr Hnt Hp) (conj B C)). auto.
Qed.
(** Debug builds: the same on records which fit. *)
Lemma signed_record_builds s r : Safe r -> signed_record true s r = signed_record false s r.
Proof.
  intros [H W]. unfold signed_record. cbv zeta. rewrite W. cbn [andb].
  destruct (negb (rr_ty r =? T_NSEC) && negb (labels (rr_name r) =? rs_labels s)); [|reflexivity].
  destruct (labels (rr_name r) <? rs_labels s) eqn:E; [reflexivity|].
  apply held_name, valid_labels in H as (ls & Hl & Hs). rewrite (labels_of _ _ Hl Hs) in E.
  rewrite (trailing_of _ _ _ Hl Hs), E. reflexivity.
Qed.
Lemma verify_rrsig_builds e s keys rs : Forall Safe rs -> verify_rrsig e true s keys rs = verify_rrsig e false s keys rs.
Proof.
  intros H. unfold verify_rrsig. destruct (existsb _ rs); [reflexivity|].
  assert (Hs : Forall Safe (sort_by rr_cmp rs)) by (rewrite <- (sort_perm rr_cmp rs); auto).
  assert (E : signed_records true s (sort_by rr_cmp rs) = signed_records false s (sort_by rr_cmp rs)).
  { induction Hs as [|r l Hr Hl IH]; cbn [signed_records]; [reflexivity|]. rewrite (signed_record_builds s r Hr), IH. reflexivity. }
  induction keys as [|k keys IH]; cbn [verify_with_keys]; [reflexivity|]. rewrite E, IH. reflexivity.
Qed.

(** ** Panics on parsed input *)
Lemma parsed_safe dbg w inp : is_bytes w -> parse_rr_stream dbg w = Ok inp -> Forall Safe inp.
Proof.
  intros Hb H. pose proof (parsed_held _ _ _ Hb H) as A. pose proof (parsed_fits _ _ _ Hb H) as B.
  rewrite Forall_forall in *. intros r Hr. split; [auto|]. apply fits_no_overflow; auto.
Qed.
Lemma parsed_verify_panic e dbg dbg' fuel w inp : is_bytes w -> parse_rr_stream dbg' w = Ok inp ->
  verify_rr_stream e dbg fuel inp = Panic ->
  dbg = true /\ exists z s, EmptyMaxLabels inp s /\ TrustedZone e inp (fun _ => True) z /\ SignedByZone e inp (fun _ => True) z s.
Proof. intros Hb H. apply verify_panic. eapply parsed_safe; eauto. Qed.
Lemma release_no_panic e fuel w inp dbg' : is_bytes w -> parse_rr_stream dbg' w = Ok inp ->
  verify_rr_stream e false fuel inp <> Panic.
Proof. intros Hb H E. eapply parsed_verify_panic in E as [E _]; eauto. discriminate. Qed.

(** ** Delegation digests *)
Lemma validated_spec e dss keys k : Forall (fun k => is_u16 (dk_flags k)) keys ->
  (In k (validated_dnskeys e dss keys) <-> In k keys /\ DelegatedKey e dss k).
Proof.
  intros H. unfold validated_dnskeys. rewrite filter_In. split; intros [A B]; split; auto;
    apply (ds_matches_spec e dss k); auto; rewrite Forall_forall in H; auto.
Qed.
Lemma dnskeys_accepted e dbg sigs dss keys s : Forall (fun k => Held (RR_DnsKey k)) keys -> Forall (fun s => Held (RR_RRSig s)) sigs ->
  verify_dnskeys e dbg sigs dss keys = Ok s ->
  In s sigs /\ exists k, In k keys /\ DelegatedKey e dss k /\ SigBy e k s (map RR_DnsKey keys).
Proof.
  intros Hk Hs. unfold verify_dnskeys. destruct (is_nil dss); [discriminate|]. destruct (negb _); [discriminate|].
  intros H. apply verify_dnskey_sigs_ok in H as [H1 H2]. split; auto.
  assert (HF : Forall (fun k => is_u16 (dk_flags k)) keys) by (eapply Forall_impl; [|exact Hk]; intros k K; apply K).
  apply verify_rrsig_sigby in H2 as (k & K1 & K2).
  - apply validated_spec in K1 as [K1 K3]; auto. eauto.
  - rewrite Forall_forall in Hs. apply Hs. auto.
  - rewrite Forall_map. exact Hk.
  - rewrite Forall_forall in *. intros k K. apply (validated_spec e dss keys k) in K as [K _]; [|rewrite Forall_forall; auto].
    apply Hk in K. apply K.
Qed.
Lemma dnskeys_empty e dbg sigs keys : verify_dnskeys e dbg sigs [] keys = Err Invalid.
Proof. reflexivity. Qed.
Lemma dnskeys_unknown e dbg sigs dss keys : dss <> [] -> Forall (fun d => ~ In (ds_digest_type d) [1; 2; 4]) dss ->
  verify_dnskeys e dbg sigs dss keys = Err UnsupportedAlgorithm.
Proof.
  intros Hn H. unfold verify_dnskeys. destruct dss as [|d dss]; [congruence|]. cbn [is_nil].
  replace (existsb _ (d :: dss)) with false; [reflexivity|]. symmetry. apply not_true_iff_false. intros E.
  apply existsb_exists in E as (x & X1 & X2). eapply Forall_forall in H; eauto. apply H. cbn [In].
  apply orb_true_iff in X2 as [X2|X2]; [apply orb_true_iff in X2 as [X2|X2]|]; apply N.eqb_eq in X2; auto.
Qed.

(** ** Unsupported algorithms *)
Lemma verify_rrsig_unsupported e dbg s keys rs : verify_rrsig e dbg s keys rs = Err UnsupportedAlgorithm ->
  ~ supported_alg (rs_alg s) /\ exists k, FirstKey s keys k.
Proof.
  unfold verify_rrsig. destruct (existsb _ rs); [discriminate|]. rewrite verify_with_keys_spec.
  intros [[_ H]|(k & F & H)]; [discriminate|]. split; [|eauto]. intros Sa. symmetry in H.
  destruct (signed_records dbg s (sort_by rr_cmp rs)) as [m|er| |] eqn:M; cbn [obind] in H; try discriminate.
  - revert H. unfold check_sig, supported_alg in *. cbn [In] in Sa. cbv zeta.
    destruct (bytes_to_rsa_pk (dk_pubkey k)) as [[? ?]|];
    destruct Sa as [<-|[<-|[<-|[<-|[<-|[]]]]]]; cbn [N.eqb Pos.eqb orb]; try destruct (e_sig _ _ _ _ _); discriminate.
  - assert (er = UnsupportedAlgorithm) by congruence. subst er. revert M.
    assert (R : forall l, signed_records dbg s l <> Err UnsupportedAlgorithm); [|intros M; eapply R; eauto].
    assert (S1 : forall r, signed_record dbg s r <> Err UnsupportedAlgorithm).
    { intros r G. apply signed_record_err in G. discriminate. }
    induction l as [|r l IHl]; cbn [signed_records]; [discriminate|].
    specialize (S1 r). destruct (signed_record dbg s r); cbn [obind]; try congruence.
    destruct (signed_records dbg s l); cbn [obind]; congruence.
Qed.
Lemma verify_rrsig_unsupported_conv e s keys rs k msg : Held (RR_RRSig s) -> Forall Held rs ->
  Forall (fun r => rr_ty r = rs_ty s) rs -> FirstKey s keys k -> SignedData s (sort_by rr_cmp rs) msg ->
  ~ supported_alg (rs_alg s) -> verify_rrsig e false s keys rs = Err UnsupportedAlgorithm.
Proof.
  intros Hs Hr Ht Hf Hm Ha. unfold verify_rrsig. apply types_match in Ht. rewrite Ht.
  apply verify_with_keys_spec. right. exists k. split; auto. symmetry.
  assert (Hr' : Forall Held (sort_by rr_cmp rs)) by (rewrite <- (sort_perm rr_cmp rs); auto).
  destruct Hm as (ps & F & ->).
  assert (E : signed_records false s (sort_by rr_cmp rs) = Ok (concat ps)).
  { apply signed_records_spec; auto. exists ps. auto. }
  rewrite E. cbn [obind]. unfold check_sig, supported_alg in *. cbn [In] in Ha. cbv zeta.
  assert (Hne : forall x, In x [8; 10; 13; 14; 15] -> (rs_alg s =? x) = false).
  { intros x Hx. apply N.eqb_neq. intros G. apply Ha. rewrite G. destruct Hx as [H|[H|[H|[H|[H|[]]]]]]; auto 10. }
  rewrite !Hne by (cbn; auto 10). reflexivity.
Qed.

Lemma dnskey_sigs_unsupported e dbg keys records : forall sigs b,
  verify_dnskey_sigs e dbg sigs keys records b = Err UnsupportedAlgorithm ->
  (b = true \/ exists s, In s sigs) /\ Forall (fun s => ~ supported_alg (rs_alg s) /\ exists k, FirstKey s keys k) sigs.
Proof.
  induction sigs as [|s sigs IH]; intros b H; cbn [verify_dnskey_sigs] in H.
  - destruct b; [|discriminate]. auto.
  - destruct (verify_rrsig e dbg s keys (map RR_DnsKey records)) as [|[]| |] eqn:V; try discriminate.
    apply verify_rrsig_unsupported in V. apply IH in H as [_ H]. split; [right; exists s; left; auto|]. constructor; auto.
Qed.
Lemma dnskeys_unsupported e dbg sigs dss keys : Forall (fun k => is_u16 (dk_flags k)) keys ->
  verify_dnskeys e dbg sigs dss keys = Err UnsupportedAlgorithm ->
  dss <> [] /\
  (Forall (fun d => ~ In (ds_digest_type d) [1; 2; 4]) dss \/
   (sigs <> [] /\ Forall (fun s => ~ supported_alg (rs_alg s) /\ exists k, In k keys /\ KeyFor s k /\ DelegatedKey e dss k) sigs)).
Proof.
  intros Hf. unfold verify_dnskeys. destruct dss as [|d dss]; [discriminate|]. cbn [is_nil]. set (dd := d :: dss) in *.
  destruct (existsb _ dd) eqn:E; cbn [negb].
  - intros H. split; [discriminate|]. right. apply dnskey_sigs_unsupported in H as [H1 H2]. split.
    + destruct H1 as [H1|(s & H1)]; [discriminate|]. intros ->. destruct H1.
    + eapply Forall_impl; [|exact H2]. intros s (A & k & B). split; auto. exists k.
      apply firstkey_in in B as [B1 B2]. apply (validated_spec e dd keys k) in B1 as [B1 B3]; auto.
  - intros _. split; [discriminate|]. left. rewrite Forall_forall. intros x Hx G.
    apply not_true_iff_false in E. apply E. apply existsb_exists. exists x. split; auto.
    cbn [In] in G. destruct G as [<-|[<-|[<-|[]]]]; reflexivity.
Qed.
Lemma dnskeys_all_unsupported e sigs dss keys : Forall (fun k => Held (RR_DnsKey k)) keys -> Forall (fun s => Held (RR_RRSig s)) sigs ->
  (exists d, In d dss /\ In (ds_digest_type d) [1; 2; 4]) -> sigs <> [] ->
  Forall (fun s => ~ supported_alg (rs_alg s) /\ rs_ty s = 48 /\
    exists k msg, FirstKey s (validated_dnskeys e dss keys) k /\ SignedData s (sort_by rr_cmp (map RR_DnsKey keys)) msg) sigs ->
  verify_dnskeys e false sigs dss keys = Err UnsupportedAlgorithm.
Proof.
  intros Hk Hs (d & D1 & D2) Hn H. unfold verify_dnskeys. destruct (is_nil dss) eqn:En; [destruct dss; [destruct D1|discriminate]|].
  replace (existsb _ dss) with true.
  2:{ symmetry. apply existsb_exists. exists d. split; auto. destruct D2 as [<-|[<-|[<-|[]]]]; reflexivity. }
  cbn [negb].
  assert (G : forall b, (b = true \/ sigs <> []) -> verify_dnskey_sigs e false sigs (validated_dnskeys e dss keys) keys b = Err UnsupportedAlgorithm);
    [|apply G; auto].
  clear Hn. induction sigs as [|s sigs IH]; intros b [->|Hn]; try congruence; cbn [verify_dnskey_sigs]; try reflexivity.
  all: inversion H as [|? ? (Ha & Ht & k & m & F & M) H']; inversion Hs as [|? ? Hs1 Hs2]; subst.
  all: rewrite (verify_rrsig_unsupported_conv e s _ _ k m Hs1); auto.
  all: try (rewrite Forall_map; auto).
  all: rewrite Forall_forall; intros x Hx; cbn; auto.
Qed.

Section Unsup.
  Variables (e : env) (dbg : bool) (inp : list RR).
  Hypothesis Hheld : Forall Held inp.

  Lemma sigs_not_unsupported z sigs : forall st, sigs_loop e dbg inp z sigs st <> Err UnsupportedAlgorithm.
  Proof.
    induction sigs as [|s sigs IH]; intros st; cbn [sigs_loop]; [discriminate|].
    assert (S1 : sig_step e dbg inp z s st <> Err UnsupportedAlgorithm).
    { unfold sig_step. destruct (negb _); [discriminate|]. destruct (verify_rrsig _ _ _ _ _) as [|[]| |]; try discriminate.
      cbv zeta. destruct (_ || _); [discriminate|]. destruct (rs_ty s =? T_DS); [discriminate|].
      unfold wildcard_need. destruct (_ && _); [|discriminate]. destruct (_ =? T_NSEC3); [discriminate|].
      destruct (_ && _); [discriminate|]. destruct (trailing_n_labels _ _); discriminate. }
    destruct (sig_step e dbg inp z s st); cbn [obind]; auto; congruence.
  Qed.

  Lemma zone_step_unsupported used visited done st : INV e dbg inp used visited done st ->
    zone_step e dbg inp st = Err UnsupportedAlgorithm ->
    exists z dss, Delegated e inp z dss /\
      verify_dnskeys e dbg (dnskey_rrsigs inp z) dss (zone_dnskeys inp z) = Err UnsupportedAlgorithm.
  Proof.
    intros I. unfold zone_step. destruct (pop_zone st) as [st1 nds] eqn:Ep.
    destruct (if bytes_eqb (v_zone st1) root_name then Some root_hints else nds) as [dss|] eqn:Ed; [|discriminate].
    destruct (verify_dnskeys e dbg (dnskey_rrsigs inp (v_zone st1)) dss (zone_dnskeys inp (v_zone st1))) as [s|er| |] eqn:V; cbn [obind]; try discriminate.
    - intros H. exfalso. eapply sigs_not_unsupported; eauto.
    - intros H. exists (v_zone st1), dss. split; [|congruence].
      destruct (bytes_eqb (v_zone st1) root_name) eqn:Er.
      + left. apply bytes_eqb_eq in Er. split; [exact Er|]. rewrite <- root_hints_anchors. congruence.
      + right. unfold pop_zone in Ep. destruct (v_pending st) as [|[n d] rest] eqn:Epn; [inversion Ep; subst; discriminate|].
        assert (E1 : n = v_zone st1 /\ d = dss) by (inversion Ep; subst; split; [reflexivity|congruence]). destruct E1 as [-> ->].
        destruct (i_pend _ _ _ _ _ _ _ I (v_zone st1) dss) as (Q1 & x & Q2 & Q3 & p & R1 & R2 & R3); [rewrite Epn; left; auto|].
        exists p, x. split; [eapply trusted_mono; [|exact R1]; auto|]. split; [eapply signed_mono; [|exact R2]; auto|]. auto.
  Qed.

  Lemma zone_loop_unsupported fuel : forall used visited done st, INV e dbg inp used visited done st ->
    closed inp visited done -> zone_loop e dbg inp fuel st = Err UnsupportedAlgorithm ->
    exists z dss, Delegated e inp z dss /\
      verify_dnskeys e dbg (dnskey_rrsigs inp z) dss (zone_dnskeys inp z) = Err UnsupportedAlgorithm.
  Proof.
    induction fuel as [|fuel IH]; intros used visited done st I C; cbn [zone_loop];
      destruct (bytes_eqb (v_zone st) root_name || negb (is_nil (v_pending st))) eqn:E; try discriminate.
    destruct (zone_step e dbg inp st) as [st1|er| |] eqn:H1; cbn [obind]; try discriminate.
    - destruct (inv_zone e dbg inp Hheld _ _ _ _ _ I C H1) as (u & d & J1 & J2 & _). eapply IH; eauto.
    - intros H. eapply zone_step_unsupported; eauto. rewrite H1. congruence.
  Qed.

  Lemma verify_unsupported fuel : verify_rr_stream e dbg fuel inp = Err UnsupportedAlgorithm ->
    exists z dss, Delegated e inp z dss /\ dss <> [] /\
    (Forall (fun d => ~ In (ds_digest_type d) [1; 2; 4]) dss \/
     ((exists s, In (RR_RRSig s) inp /\ rs_name s = z /\ rs_ty s = 48) /\
      forall s, In (RR_RRSig s) inp -> rs_name s = z -> rs_ty s = 48 -> ~ supported_alg (rs_alg s))).
  Proof.
    unfold verify_rr_stream. intros H.
    destruct (zone_loop e dbg inp fuel vinit) as [st|er| |] eqn:E; cbn [obind] in H; try discriminate.
    - exfalso. revert H. unfold finish_verify. destruct (is_nil _); [discriminate|]. destruct (_ <=? _); [discriminate|].
      cbv zeta. assert (P : forall f l, proof_loop e (v_res st) f l <> Err UnsupportedAlgorithm).
      { induction f as [|f IHf]; intros [|x l]; cbn [proof_loop]; try discriminate. destruct (discharge _ _ _ _); [apply IHf|discriminate]. }
      destruct (proof_loop e (v_res st) _ _) as [|er| |] eqn:PE; cbn [obind]; try discriminate.
      intros G. eapply P. rewrite PE. congruence.
    - assert (er = UnsupportedAlgorithm) by congruence. subst er.
      eapply zone_loop_unsupported in E as (z & dss & D & V); [|apply inv_init|intros z s []].
      exists z, dss. split; [exact D|]. apply dnskeys_unsupported in V as (V1 & V2).
      + split; [exact V1|]. destruct V2 as [V2|[V2 V3]]; [left; exact V2|right]. split.
        * destruct (dnskey_rrsigs inp z) as [|s l] eqn:El; [congruence|]. exists s. apply in_dnskey_rrsigs. rewrite El. left. auto.
        * intros s S1 S2 S3. assert (S4 : In s (dnskey_rrsigs inp z)) by (apply in_dnskey_rrsigs; auto).
          eapply Forall_forall in V3; [|exact S4]. apply V3.
      + rewrite Forall_forall. intros k Hk. apply in_zone_keys, in_rrset in Hk as (Hk & _).
        rewrite Forall_forall in Hheld. apply Hheld in Hk. apply Hk.
  Qed.
End Unsup.

(** A zone whose DNSKEY RRset was accepted has an implemented digest and an implemented algorithm. *)
Lemma vouched_supported e inp used dss z : KeysVouched e inp used dss z ->
  (exists d, In d dss /\ (ds_digest_type d = 1 \/ ds_digest_type d = 2)) /\
  (exists s, In (RR_RRSig s) inp /\ rs_name s = z /\ rs_ty s = 48 /\ supported_alg (rs_alg s)).
Proof.
  intros (k & s & K1 & (d & D1 & D2 & D3 & D4) & K3 & K4 & K5 & K6 & K7). split.
  - exists d. split; [auto|]. destruct D4 as [[D4 _]|[D4 _]]; auto.
  - exists s. repeat split; auto. destruct K7 as (_ & _ & o & m & _ & _ & H). unfold supported_alg. cbn. inversion H; auto 10.
Qed.
Lemma verified_supported e dbg fuel inp v z : Forall Held inp -> verify_rr_stream e dbg fuel inp = Ok v -> Reached e inp z ->
  (exists d, (if list_eq_dec N.eq_dec z [46] then In d root_anchors else In (RR_DS d) (rrset inp z 43)) /\
     (ds_digest_type d = 1 \/ ds_digest_type d = 2)) /\
  (exists s, In (RR_RRSig s) inp /\ rs_name s = z /\ rs_ty s = 48 /\ supported_alg (rs_alg s)).
Proof.
  intros Hh Hv Hz. destruct (verified_complete e dbg fuel inp v Hh Hv z Hz) as [T _].
  inversion T as [K|p z' s T1 T2 T3 T4 T5 K]; subst.
  - apply vouched_supported in K as [(d & D1 & D2) K]. split; [|exact K]. exists d. cbn. auto.
  - apply vouched_supported in K as [(d & D1 & D2) K]. split; [|exact K]. exists d. split; auto.
    destruct (list_eq_dec N.eq_dec (rs_name s) [46]); [contradiction|].
    apply in_flat_map in D1 as (r & R1 & R2). destruct r; cbn in R2; try contradiction. destruct R2 as [->|[]]. exact R1.
Qed.

(** ** Work: signature queries *)

Lemma check_sig_query s k msg : exists q, forall e e', AgreeSig [q] e e' -> check_sig e s k msg = check_sig e' s k msg.
Proof.
  unfold check_sig. cbv zeta. destruct ((rs_alg s =? 8) || (rs_alg s =? 10)).
  { destruct (bytes_to_rsa_pk _) as [[n x]|].
    - exists (if rs_alg s =? 8 then RSA_SHA256 else RSA_SHA512, PK_RSA n x, msg, rs_signature s).
      intros e e' (_ & _ & _ & H). rewrite H by (left; auto). reflexivity.
    - exists (ED25519, PK_raw [], [], []). reflexivity. }
  destruct ((rs_alg s =? 13) || (rs_alg s =? 14)).
  { exists (if rs_alg s =? 13 then ECDSA_P256 else ECDSA_P384, PK_raw (4 :: dk_pubkey k), msg, rs_signature s).
    intros e e' (_ & _ & _ & H). rewrite H by (left; auto). reflexivity. }
  destruct (rs_alg s =? 15).
  - exists (ED25519, PK_raw (dk_pubkey k), msg, rs_signature s). intros e e' (_ & _ & _ & H). rewrite H by (left; auto). reflexivity.
  - exists (ED25519, PK_raw [], [], []). reflexivity.
Qed.
Lemma verify_rrsig_query dbg s keys rs : exists q, forall e e', AgreeSig [q] e e' ->
  verify_rrsig e dbg s keys rs = verify_rrsig e' dbg s keys rs.
Proof.
  unfold verify_rrsig. destruct (existsb _ rs); [exists (ED25519, PK_raw [], [], []); reflexivity|].
  induction keys as [|k keys IH]; cbn [verify_with_keys]; [exists (ED25519, PK_raw [], [], []); reflexivity|].
  destruct (key_usable s k); [|exact IH].
  destruct (signed_records dbg s (sort_by rr_cmp rs)) as [m|er| |]; cbn [obind]; try (exists (ED25519, PK_raw [], [], []); reflexivity).
  apply check_sig_query.
Qed.
Lemma agree_app Q Q' e e' : AgreeSig (Q ++ Q') e e' -> AgreeSig Q e e' /\ AgreeSig Q' e e'.
Proof.
  intros (A & B & C & D). split; (split; [|split; [|split]]; auto; intros; apply D; apply in_or_app; auto).
Qed.
Lemma validated_agree Q e e' dss keys : AgreeSig Q e e' -> validated_dnskeys e dss keys = validated_dnskeys e' dss keys.
Proof.
  intros (A & B & _). unfold validated_dnskeys. apply filter_ext. intros k.
  assert (M : forall t d, ds_matches e t k d = ds_matches e' t k d) by (intros; unfold ds_matches; rewrite A, B; reflexivity).
  induction dss as [|d l IH] at 2 4; cbn [existsb]; [reflexivity|]. rewrite M, IH. reflexivity.
Qed.
Lemma dnskey_sigs_queries e dbg keys records : forall sigs b, exists Q, (length Q <= length sigs)%nat /\
  forall e', AgreeSig Q e e' -> verify_dnskey_sigs e dbg sigs keys records b = verify_dnskey_sigs e' dbg sigs keys records b.
Proof.
  induction sigs as [|s sigs IH]; intros b.
  - exists []. split; [auto|reflexivity].
  - destruct (verify_rrsig_query dbg s keys (map RR_DnsKey records)) as (q & Hq).
    destruct (IH true) as (Q & L & HQ). exists ([q] ++ Q). split; [cbn [length app]; lia|].
    intros e' A. apply agree_app in A as [A1 A2]. cbn [verify_dnskey_sigs]. rewrite (Hq e e' A1).
    destruct (verify_rrsig e' dbg s keys (map RR_DnsKey records)) as [|[]| |]; auto.
Qed.
Lemma dnskeys_queries e dbg sigs dss keys : exists Q, (length Q <= length sigs)%nat /\
  forall e', AgreeSig Q e e' -> verify_dnskeys e dbg sigs dss keys = verify_dnskeys e' dbg sigs dss keys.
Proof.
  destruct (dnskey_sigs_queries e dbg (validated_dnskeys e dss keys) keys sigs false) as (Q & L & H).
  exists Q. split; auto. intros e' A. unfold verify_dnskeys. destruct (is_nil dss); [reflexivity|]. destruct (negb _); [reflexivity|].
  rewrite <- (validated_agree _ _ _ dss keys A). auto.
Qed.
Lemma sigs_queries e dbg inp z : forall sigs st, exists Q, (length Q <= length sigs)%nat /\
  forall e', AgreeSig Q e e' -> sigs_loop e dbg inp z sigs st = sigs_loop e' dbg inp z sigs st.
Proof.
  induction sigs as [|s sigs IH]; intros st.
  - exists []. split; [auto|reflexivity].
  - destruct (verify_rrsig_query dbg s (zone_dnskeys inp z) (covered inp s)) as (q & Hq).
    assert (S1 : forall e', AgreeSig [q] e e' -> sig_step e dbg inp z s st = sig_step e' dbg inp z s st).
    { intros e' A. unfold sig_step. rewrite (Hq e e' A). reflexivity. }
    destruct (sig_step e dbg inp z s st) as [st1|er| |] eqn:E.
    { destruct (IH st1) as (Q & L & HQ). exists ([q] ++ Q). split; [cbn [length app]; lia|].
      intros e' A. apply agree_app in A as [A1 A2]. cbn [sigs_loop]. rewrite <- (S1 e' A1), E. cbn [obind]. auto. }
    all: exists [q]; split; [cbn [length]; lia|]; intros e' A; cbn [sigs_loop]; rewrite <- (S1 e' A), E; reflexivity.
Qed.
Lemma sig_filters inp z : (length (dnskey_rrsigs inp z) + length (zone_rrsigs inp z) <= length (rrsigs inp))%nat.
Proof.
  unfold dnskey_rrsigs, zone_rrsigs. induction (rrsigs inp) as [|s l IH]; cbn [filter length]; [lia|].
  destruct (rs_ty s =? T_DNSKEY); cbn [negb]; rewrite ?andb_true_r, ?andb_false_r; destruct (bytes_eqb _ _); cbn [length]; lia.
Qed.
Lemma zone_step_queries e dbg inp st : exists Q, (length Q <= length (rrsigs inp))%nat /\
  forall e', AgreeSig Q e e' -> zone_step e dbg inp st = zone_step e' dbg inp st.
Proof.
  unfold zone_step. destruct (pop_zone st) as [st1 nds].
  destruct (if bytes_eqb (v_zone st1) root_name then Some root_hints else nds) as [dss|]; [|exists []; split; [cbn; lia|reflexivity]].
  destruct (dnskeys_queries e dbg (dnskey_rrsigs inp (v_zone st1)) dss (zone_dnskeys inp (v_zone st1))) as (Q1 & L1 & H1).
  pose proof (sig_filters inp (v_zone st1)) as F.
  destruct (verify_dnskeys e dbg _ dss _) as [s|er| |] eqn:V; cbn [obind].
  - destruct (sigs_queries e dbg inp (v_zone st1) (zone_rrsigs inp (v_zone st1)) (note_sig s st1)) as (Q2 & L2 & H2).
    exists (Q1 ++ Q2). split; [rewrite app_length; lia|]. intros e' A. apply agree_app in A as [A1 A2].
    rewrite <- (H1 e' A1). cbn [obind]. auto.
  - exists Q1. split; [lia|]. intros e' A. rewrite <- (H1 e' A). reflexivity.
  - exists Q1. split; [lia|]. intros e' A. rewrite <- (H1 e' A). reflexivity.
  - exists Q1. split; [lia|]. intros e' A. rewrite <- (H1 e' A). reflexivity.
Qed.
Lemma zone_loop_queries e dbg inp : forall fuel st, exists Q, (length Q <= fuel * length (rrsigs inp))%nat /\
  forall e', AgreeSig Q e e' -> zone_loop e dbg inp fuel st = zone_loop e' dbg inp fuel st.
Proof.
  induction fuel as [|fuel IH]; intros st; cbn [zone_loop].
  - exists []. split; [cbn; lia|]. reflexivity.
  - destruct (bytes_eqb (v_zone st) root_name || negb (is_nil (v_pending st))); [|exists []; split; [cbn; lia|reflexivity]].
    destruct (zone_step_queries e dbg inp st) as (Q1 & L1 & H1).
    destruct (zone_step e dbg inp st) as [st1|er| |]; cbn [obind].
    { destruct (IH st1) as (Q2 & L2 & H2). exists (Q1 ++ Q2). split; [rewrite app_length; cbn [Nat.mul]; lia|].
      intros e' A. apply agree_app in A as [A1 A2]. rewrite <- (H1 e' A1). cbn [obind]. auto. }
    all: exists Q1; split; [cbn [Nat.mul]; lia|]; intros e' A; rewrite <- (H1 e' A); reflexivity.
Qed.

(** ** Work: SHA-1 queries *)
Lemma iter_queries e salt : forall n h, exists Q, length Q = n /\ forall e', AgreeSha1 Q e e' -> nsec3_iter e salt n h = nsec3_iter e' salt n h.
Proof.
  induction n as [|n IH]; intros h; cbn [nsec3_iter].
  - exists []. split; reflexivity.
  - destruct (IH (e_sha1 e (h ++ salt))) as (Q & L & H). exists ((h ++ salt) :: Q). split; [cbn [length]; lia|].
    intros e' A. rewrite <- (A (h ++ salt)) by (left; auto). apply H. intros x Hx. apply A. right. auto.
Qed.
Lemma hash_queries e nm salt it : exists Q, N.of_nat (length Q) = it + 1 /\
  forall e', AgreeSha1 Q e e' -> nsec3_hash e nm salt it = nsec3_hash e' nm salt it.
Proof.
  unfold nsec3_hash. destruct (iter_queries e salt (N.to_nat it) (e_sha1 e (write_name nm ++ salt))) as (Q & L & H).
  exists ((write_name nm ++ salt) :: Q). split; [cbn [length]; lia|]. intros e' A.
  rewrite <- (A (write_name nm ++ salt)) by (left; auto). apply H. intros x Hx. apply A. right. auto.
Qed.
Lemma table_queries e nm : forall ns tbl, (length tbl < 2)%nat -> exists Q, N.of_nat (length Q) + 2501 * N.of_nat (length tbl) <= 5002 /\
  forall e', AgreeSha1 Q e e' -> nsec3_table e nm ns tbl = nsec3_table e' nm ns tbl.
Proof.
  induction ns as [|n ns IH]; intros tbl Ht; cbn [nsec3_table].
  - exists []. split; [cbn [length]; lia|reflexivity].
  - destruct (2500 <? n3_iters n) eqn:E1; [apply IH; auto|]. apply N.ltb_ge in E1.
    destruct (negb (n3_algo n =? 1)); [apply IH; auto|]. destruct (existsb _ tbl); [apply IH; auto|].
    destruct (hash_queries e nm (n3_salt n) (n3_iters n)) as (Q & L & H).
    set (tbl' := tbl ++ [(n3_iters n, n3_salt n, nsec3_hash e nm (n3_salt n) (n3_iters n))]).
    assert (L' : length tbl' = S (length tbl)) by (unfold tbl'; rewrite app_length; cbn [length]; lia).
    destruct (2 <=? len tbl') eqn:E2; unfold len in E2; rewrite L' in E2.
    + exists Q. split; [lia|]. intros e' A. rewrite <- (H e' A). fold tbl'. unfold len. rewrite L', E2. reflexivity.
    + apply N.leb_gt in E2. destruct (IH tbl') as (Q2 & L2 & H2); [lia|].
      exists (Q ++ Q2). split; [rewrite app_length; lia|]. intros e' A.
      assert (A1 : AgreeSha1 Q e e') by (intros x Hx; apply A, in_or_app; auto).
      assert (A2 : AgreeSha1 Q2 e e') by (intros x Hx; apply A, in_or_app; auto).
      rewrite <- (H e' A1). fold tbl'. unfold len. rewrite L'. rewrite (proj2 (N.leb_gt _ _) E2). auto.
Qed.
Lemma discharge_queries e res nd needs : exists Q, N.of_nat (length Q) <= 5002 /\
  forall e', AgreeSha1 Q e e' -> discharge e res nd needs = discharge e' res nd needs.
Proof.
  destruct nd as [[nm z] ty]. unfold discharge.
  destruct (find _ _); [exists []; split; [cbn; lia|reflexivity]|].
  destruct (table_queries e nm (nsec3_search res z) []) as (Q & L & H); [cbn; lia|].
  exists Q. split; [lia|]. intros e' A. rewrite <- (H e' A). reflexivity.
Qed.

Lemma proof_loop_agree Q e e' res : AgreeSig Q e e' -> forall fuel needs, proof_loop e res fuel needs = proof_loop e' res fuel needs.
Proof.
  intros (A & _). induction fuel as [|fuel IH]; intros [|nd needs]; cbn [proof_loop]; try reflexivity.
  destruct (discharge_queries e res nd needs) as (Q' & _ & H). rewrite (H e') by (intros x _; apply A).
  destruct (discharge e' res nd needs); auto.
Qed.
Lemma verify_queries e dbg fuel inp : exists Q, (length Q <= fuel * length (rrsigs inp))%nat /\
  forall e', AgreeSig Q e e' -> verify_rr_stream e dbg fuel inp = verify_rr_stream e' dbg fuel inp.
Proof.
  unfold verify_rr_stream. destruct (zone_loop_queries e dbg inp fuel vinit) as (Q & L & H).
  exists Q. split; [exact L|]. intros e' A. rewrite (H e' A). destruct (zone_loop e' dbg inp fuel vinit) as [st|er| |]; cbn [obind]; try reflexivity.
  unfold finish_verify. destruct A as (A1 & A2 & A3 & A4). rewrite A3. rewrite (proof_loop_agree Q e e'); [reflexivity|].
  split; [exact A1|]. split; [exact A2|]. split; [exact A3|exact A4].
Qed.

(** ** Order of the RRset *)
Lemma verify_rrsig_perm e dbg s keys rs rs' : Permutation rs rs' -> verify_rrsig e dbg s keys rs = verify_rrsig e dbg s keys rs'.
Proof.
  intros P. unfold verify_rrsig.
  assert (E : existsb (fun r => negb (rs_ty s =? rr_ty r)) rs = existsb (fun r => negb (rs_ty s =? rr_ty r)) rs').
  { apply eq_true_iff_eq. rewrite !existsb_exists. split; intros (x & X1 & X2); exists x; split; auto.
    - eapply Permutation_in; eauto. - eapply Permutation_in; [apply Permutation_sym|]; eauto. }
  rewrite E. destruct (existsb _ rs'); [reflexivity|].
  induction keys as [|k keys IH]; cbn [verify_with_keys]; [reflexivity|]. rewrite (sort_unique _ _ P), IH. reflexivity.
Qed.
