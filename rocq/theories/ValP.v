(** Proofs about one signature check. *)
From Verif Require Import Base BaseP NameM WireM RRM ValM NameSpec NameP RecSpec RecP CodecSpec CodecP ValSpec.
From Verif Require Import WireP RecP2.
From Coq Require Import Permutation Arith.
Local Open Scope N_scope.

Lemma held_name r : Held r -> valid_name (rr_name r).
Proof. unfold Held. destruct r; cbn [typed_rr rr_name]; intros H; exact (proj1 H) || (destruct H; assumption). Qed.

Lemma valid_labels n : valid_name n -> exists ls, LabelsOf n ls /\ (length ls <= 255)%nat.
Proof.
  intros H. apply valid_name_spec in H as [[ls (H1 & H2 & H3 & H4)] _]. subst n.
  pose proof (dots_length ls).
  destruct (list_eq_dec (list_eq_dec N.eq_dec) ls [[]]) as [->|Hn].
  - exists []. repeat split; try constructor; try congruence. cbn; lia.
  - exists ls. repeat split; auto; try lia. destruct ls; [congruence|reflexivity].
Qed.

Lemma labels_of n ls : LabelsOf n ls -> (length ls <= 255)%nat -> labels n = N.of_nat (length ls).
Proof.
  intros (H1 & H2 & H3) H4. subst. destruct ls as [|l ls]; [reflexivity|].
  apply labels_dots; auto; try congruence. apply labels_ok_nodot; auto.
Qed.

Lemma trailing_of n ls k : LabelsOf n ls -> (length ls <= 255)%nat ->
  trailing_n_labels n k =
    if N.of_nat (length ls) <? k then None else Some (dotted (skipn (length ls - N.to_nat k) ls)).
Proof.
  intros (H1 & H2 & H3) H4. subst. destruct ls as [|l ls].
  - cbn [dotted length]. destruct (N.eq_dec k 0) as [->|Hk]; [reflexivity|].
    destruct root_labels as (_ & _ & H). rewrite H by lia.
    replace (N.of_nat 0 <? k) with true; auto. symmetry. apply N.ltb_lt. lia.
  - cbn [dotted]. rewrite trailing_dots; auto; try congruence; [|apply labels_ok_nodot; auto].
    destruct (N.of_nat (length (l :: ls)) <? k) eqn:E; auto. apply N.ltb_ge in E.
    destruct (k =? 0) eqn:E0.
    + apply N.eqb_eq in E0. subst. rewrite skipn_all2 by lia. reflexivity.
    + apply N.eqb_neq in E0. f_equal.
      remember (skipn (length (l :: ls) - N.to_nat k) (l :: ls)) as t. destruct t as [|t0 t]; [|reflexivity].
      apply (f_equal (@length _)) in Heqt. rewrite skipn_length in Heqt. cbn [length] in *. lia.
Qed.

Lemma labelsof_inj n a b : LabelsOf n a -> LabelsOf n b -> a = b.
Proof.
  intros (A1 & A2 & A3) (B1 & B2 & B3). subst n.
  apply labels_ok_nodot in A2, B2.
  destruct a as [|x a], b as [|y b]; auto.
  - cbn [dotted] in B1. symmetry in B1. apply dots_root in B1; auto. congruence.
  - cbn [dotted] in B1. apply dots_root in B1; auto. congruence.
  - cbn [dotted] in B1. apply dots_inj in B1; auto.
Qed.

Definition held_sig (s : rrsig) : Prop := Held (RR_RRSig s).

Lemma sig_prefix_spec s : held_sig s -> sig_prefix s = rrsig_rdata s.
Proof.
  intros (H1 & H2 & H3 & H4 & H5 & H6 & H7 & H8 & _). unfold sig_prefix, rrsig_rdata.
  rewrite !be16_u16, !be32_u32 by assumption. reflexivity.
Qed.

Lemma rr_ty_small r : rr_ty r < 65536.
Proof. destruct r; reflexivity. Qed.

(** The owner part. *)
Definition owner_part (s : rrsig) (r : RR) : option (list N) :=
  if negb (rr_ty r =? T_NSEC) && negb (labels (rr_name r) =? rs_labels s) then
    match trailing_n_labels (rr_name r) (rs_labels s) with
    | Some n => Some ([1; 42] ++ write_name n)
    | None => None
    end
  else Some (write_name (rr_name r)).

Lemma owner_part_spec s r w : Held r -> (owner_part s r = Some w <-> SignedOwner s r w).
Proof.
  intros Hr. apply held_name, valid_labels in Hr as (ls & Hl & Hs).
  unfold owner_part. rewrite (labels_of _ _ Hl Hs), (trailing_of _ _ _ Hl Hs). split.
  - intros H.
    destruct (rr_ty r =? T_NSEC) eqn:Et; cbn [negb andb] in H.
    + apply N.eqb_eq in Et. inversion H; subst. apply SO_nsec. exact Et.
    + destruct (N.of_nat (length ls) =? rs_labels s) eqn:El; cbn [negb] in H.
      * apply N.eqb_eq in El. inversion H; subst. eapply SO_exact; eauto.
      * destruct (N.of_nat (length ls) <? rs_labels s) eqn:E; [discriminate|].
        apply N.eqb_neq in Et, El. apply N.ltb_ge in E. inversion H; subst w; clear H.
        apply SO_wildcard with (pre := firstn (length ls - N.to_nat (rs_labels s)) ls).
        -- exact Et.
        -- rewrite firstn_skipn. exact Hl.
        -- intros G. apply (f_equal (@length _)) in G. rewrite firstn_length in G. cbn in G. lia.
        -- rewrite skipn_length. lia.
  - intros H. inversion H as [ls' Hl' Hn|Hn|pre suf Ht Hl' Hp Hn]; subst.
    + rewrite (labelsof_inj _ _ _ Hl Hl'), <- Hn, N.eqb_refl, andb_false_r. reflexivity.
    + rewrite Hn. reflexivity.
    + rewrite (labelsof_inj _ _ _ Hl Hl') in *. clear Hl ls.
      rewrite app_length in *. destruct pre as [|p pre]; [congruence|]. cbn [length] in *.
      replace (rr_ty r =? T_NSEC) with false by (symmetry; apply N.eqb_neq; exact Ht).
      replace (N.of_nat (S (length pre) + length suf) =? rs_labels s) with false by (symmetry; apply N.eqb_neq; lia).
      replace (N.of_nat (S (length pre) + length suf) <? rs_labels s) with false by (symmetry; apply N.ltb_ge; lia).
      cbn [negb andb].
      replace (S (length pre) + length suf - N.to_nat (rs_labels s))%nat with (length (p :: pre)) by (cbn [length]; lia).
      rewrite (skipn_app _ (p :: pre)), skipn_all, Nat.sub_diag. reflexivity.
Qed.

Lemma signed_record_release s r : signed_record false s r =
  match owner_part s r with
  | Some w => Ok (w ++ be16 (rr_ty r) ++ be16 1 ++ be32 (rs_orig_ttl s) ++ write_data r)
  | None => Err Invalid
  end.
Proof.
  unfold signed_record, owner_part. cbv zeta.
  destruct (negb (rr_ty r =? T_NSEC) && negb (labels (rr_name r) =? rs_labels s)) eqn:E; [|reflexivity].
  destruct (labels (rr_name r) <? rs_labels s) eqn:E2.
  - replace (trailing_n_labels (rr_name r) (rs_labels s)) with (@None (list N)); [reflexivity|].
    unfold trailing_n_labels. rewrite E2. reflexivity.
  - destruct (trailing_n_labels (rr_name r) (rs_labels s)); reflexivity.
Qed.

Lemma signed_record_spec s r p : held_sig s -> Held r ->
  (signed_record false s r = Ok p <-> SignedRR s r p).
Proof.
  intros Hs Hr. rewrite signed_record_release. unfold SignedRR.
  assert (H32 : be32 (rs_orig_ttl s) = u32 (rs_orig_ttl s)) by (apply be32_u32; apply Hs).
  rewrite H32, !be16_u16 by (try apply rr_ty_small; reflexivity).
  pose proof (owner_part_spec s r) as HO.
  destruct (owner_part s r) as [w|]; split.
  - intros H. exists w. split; [apply HO; auto|]. congruence.
  - intros (o & H1 & ->). apply HO in H1; auto. congruence.
  - discriminate.
  - intros (o & H1 & ->). apply HO in H1; auto. discriminate.
Qed.

Lemma signed_records_spec s rs m : held_sig s -> Forall Held rs ->
  (signed_records false s rs = Ok m <-> exists ps, Forall2 (SignedRR s) rs ps /\ m = concat ps).
Proof.
  intros Hs Hr. revert m. induction Hr as [|r rs Hr Hrs IH]; intros m; cbn [signed_records].
  - split.
    + intros H. exists []. split; [constructor|]. cbn. congruence.
    + intros (ps & H & ->). inversion H. reflexivity.
  - rewrite obind_ok. split.
    + intros (a & Ha & H). apply obind_ok in H as (b & Hb & H). inversion H; subst; clear H.
      apply signed_record_spec in Ha; auto. apply IH in Hb as (ps & H1 & ->).
      exists (a :: ps). split; [constructor; auto|reflexivity].
    + intros (ps & H & ->). inversion H as [|? p ? ps' H1 H2]; subst; clear H.
      exists p. split; [apply signed_record_spec; auto|].
      apply obind_ok. exists (concat ps'). split; [apply IH; eauto|reflexivity].
Qed.

(** Debug builds either agree or panic. *)
Lemma signed_record_dbg s r p : signed_record true s r = Ok p -> signed_record false s r = Ok p.
Proof.
  unfold signed_record. cbv zeta. intros H. apply obind_ok in H as (a & H1 & H2).
  apply obind_ok. exists a. split.
  - destruct (negb (rr_ty r =? T_NSEC) && negb (labels (rr_name r) =? rs_labels s)); [|exact H1].
    destruct (labels (rr_name r) <? rs_labels s); [exact H1|].
    destruct (trailing_n_labels (rr_name r) (rs_labels s)); [exact H1|discriminate].
  - cbn [andb] in *. destruct (write_data_overflows r); [discriminate|exact H2].
Qed.
Lemma signed_records_dbg s rs p : signed_records true s rs = Ok p -> signed_records false s rs = Ok p.
Proof.
  revert p. induction rs as [|r rs IH]; intros p; cbn [signed_records]; auto.
  intros H. apply obind_ok in H as (a & H1 & H). apply obind_ok in H as (b & H2 & H).
  apply obind_ok. exists a. split; [apply signed_record_dbg; auto|].
  apply obind_ok. exists b. split; auto.
Qed.

Lemma check_sig_spec e s k msg : is_bytes (dk_pubkey k) -> (check_sig e s k msg = Ok tt <-> CryptoOk e s k msg).
Proof.
  intros Hk. unfold check_sig. cbv zeta.
  assert (G : forall (b : bool), (if b then @Ok verr unit tt else Err Invalid) = Ok tt <-> b = true)
    by (intros []; split; congruence).
  pose proof (rsa_spec (dk_pubkey k)) as HR.
  destruct (rs_alg s =? 8) eqn:E8; [|destruct (rs_alg s =? 10) eqn:E10].
  - apply N.eqb_eq in E8. cbn [orb].
    destruct (bytes_to_rsa_pk (dk_pubkey k)) as [[md ex]|]; split.
    + intros H. apply G in H. destruct (HR md ex Hk) as [HR1 _]. destruct HR1 as (R1 & R2 & R3); auto.
      eapply CO_rsa256; eauto.
    + intros H. apply G. inversion H; try congruence.
      destruct (HR md0 ex0 Hk) as [_ HR2]. rewrite HR2 in *; auto.
      assert (md = md0 /\ ex = ex0) as [-> ->] by (split; specialize (HR2 (conj H1 (conj H2 H3))); congruence). auto.
    + discriminate.
    + intros H. inversion H; try congruence.
      destruct (HR md ex Hk) as [_ HR2]. specialize (HR2 (conj H1 (conj H2 H3))). discriminate.
  - apply N.eqb_eq in E10. cbn [orb].
    destruct (bytes_to_rsa_pk (dk_pubkey k)) as [[md ex]|]; split.
    + intros H. apply G in H. destruct (HR md ex Hk) as [HR1 _]. destruct HR1 as (R1 & R2 & R3); auto.
      eapply CO_rsa512; eauto.
    + intros H. apply G. inversion H; try congruence.
      destruct (HR md0 ex0 Hk) as [_ HR2].
      assert (md = md0 /\ ex = ex0) as [-> ->] by (split; specialize (HR2 (conj H1 (conj H2 H3))); congruence). auto.
    + discriminate.
    + intros H. inversion H; try congruence.
      destruct (HR md ex Hk) as [_ HR2]. specialize (HR2 (conj H1 (conj H2 H3))). discriminate.
  - cbn [orb]. apply N.eqb_neq in E8, E10.
    destruct (rs_alg s =? 13) eqn:E13; [|destruct (rs_alg s =? 14) eqn:E14; [|destruct (rs_alg s =? 15) eqn:E15]];
      cbn [orb]; rewrite ?G.
    + apply N.eqb_eq in E13. split; intros H; [apply CO_p256; auto|]. inversion H; try congruence.
    + apply N.eqb_eq in E14. split; intros H; [apply CO_p384; auto|]. inversion H; try congruence.
    + apply N.eqb_eq in E15. split; intros H; [apply CO_ed25519; auto|]. inversion H; try congruence.
    + apply N.eqb_neq in E13, E14, E15. split; intros H; [discriminate|]. inversion H; congruence.
Qed.

Lemma land_bit n i : negb (N.land n (2 ^ i) =? 0) = N.testbit n i.
Proof.
  destruct (N.testbit n i) eqn:E.
  - apply negb_true_iff, N.eqb_neq. intros H.
    apply (f_equal (fun x => N.testbit x i)) in H. rewrite N.land_spec, E, N.pow2_bits_true in H. discriminate.
  - apply negb_false_iff, N.eqb_eq. apply N.bits_inj. intros j.
    rewrite N.land_spec, N.bits_0, N.pow2_bits_eqb.
    destruct (N.eqb_spec i j) as [->|]; [rewrite E; reflexivity|apply andb_false_r].
Qed.

Lemma key_usable_spec s k : key_usable s k = true <-> KeyFor s k.
Proof.
  unfold key_usable, KeyFor. change 256 with (2 ^ 8). rewrite land_bit.
  rewrite !andb_true_iff, !N.eqb_eq. tauto.
Qed.

(** Sorting permutes. *)
Lemma insert_perm {A} (cmp : A -> A -> comparison) x l : Permutation (x :: l) (insert_by cmp x l).
Proof.
  induction l as [|y l IH]; cbn [insert_by]; [auto|].
  destruct (cmp x y); auto. rewrite perm_swap. constructor. exact IH.
Qed.
Lemma sort_perm {A} (cmp : A -> A -> comparison) l : Permutation l (sort_by cmp l).
Proof.
  induction l as [|x l IH]; cbn [sort_by]; [auto|].
  rewrite <- insert_perm. constructor. exact IH.
Qed.

(** One call of [verify_rrsig]. *)

Lemma verify_with_keys_spec e dbg s keys rs o :
  verify_with_keys e dbg s keys rs = o <->
  ((Forall (fun k => ~ KeyFor s k) keys /\ o = Err Invalid) \/
   (exists k, FirstKey s keys k /\
     o = (body <- signed_records dbg s (sort_by rr_cmp rs) ;; check_sig e s k (sig_prefix s ++ body)))).
Proof.
  induction keys as [|k keys IH]; cbn [verify_with_keys].
  - split.
    + intros <-. left. split; auto.
    + intros [[_ ->]|(k & (pre & post & H & _) & _)]; auto. destruct pre; discriminate.
  - destruct (key_usable s k) eqn:E.
    + apply key_usable_spec in E. split.
      * intros <-. right. exists k. split; auto. exists [], keys. auto.
      * intros [[H _]|(k' & (pre & post & H & H1 & H2) & ->)].
        -- inversion H; contradiction.
        -- destruct pre as [|p pre]; cbn [app] in H.
           ++ inversion H; subst. reflexivity.
           ++ inversion H; subst. inversion H1; contradiction.
    + assert (E' : ~ KeyFor s k) by (rewrite <- key_usable_spec; congruence).
      rewrite IH. split.
      * intros [[H ->]|(k' & (pre & post & H & H1 & H2) & ->)].
        -- left. split; auto.
        -- right. exists k'. split; auto. exists (k :: pre), post. subst. auto.
      * intros [[H ->]|(k' & (pre & post & H & H1 & H2) & ->)].
        -- left. inversion H; auto.
        -- right. exists k'. split; auto. destruct pre as [|p pre]; cbn [app] in H; inversion H; subst; [contradiction|].
           inversion H1; subst. exists pre, post. auto.
Qed.

Lemma types_match s rs : existsb (fun r => negb (rs_ty s =? rr_ty r)) rs = false <-> Forall (fun r => rr_ty r = rs_ty s) rs.
Proof.
  rewrite existsb_false, Forall_forall. split; intros H x Hx; specialize (H x Hx).
  - apply negb_false_iff, N.eqb_eq in H. auto.
  - apply negb_false_iff, N.eqb_eq. auto.
Qed.

Lemma firstkey_in s keys k : FirstKey s keys k -> In k keys /\ KeyFor s k.
Proof. intros (pre & post & -> & _ & H). split; auto. apply in_elt. Qed.

Lemma verify_rrsig_spec e s keys rs : held_sig s -> Forall Held rs -> Forall (fun k => is_bytes (dk_pubkey k)) keys ->
  (verify_rrsig e false s keys rs = Ok tt <->
   Forall (fun r => rr_ty r = rs_ty s) rs /\
   exists k msg, FirstKey s keys k /\ SignedData s (sort_by rr_cmp rs) msg /\ CryptoOk e s k msg).
Proof.
  intros Hs Hr Hk. unfold verify_rrsig.
  assert (Hr' : Forall Held (sort_by rr_cmp rs)) by (rewrite <- (sort_perm rr_cmp rs); auto).
  destruct (existsb (fun r => negb (rs_ty s =? rr_ty r)) rs) eqn:E.
  - split; [discriminate|]. intros [H _]. apply types_match in H. congruence.
  - apply types_match in E. rewrite verify_with_keys_spec. split.
    + intros [[_ H]|(k & H1 & H)]; [discriminate|]. split; auto.
      symmetry in H. apply obind_ok in H as (b & H2 & H3).
      apply signed_records_spec in H2 as (ps & H2 & ->); auto.
      apply check_sig_spec in H3.
      2:{ apply firstkey_in in H1 as [H1 _]. eapply Forall_forall in Hk; eauto. }
      exists k, (sig_prefix s ++ concat ps). repeat split; auto. exists ps. split; auto.
      rewrite sig_prefix_spec; auto.
    + intros [_ (k & msg & H1 & (ps & H2 & ->) & H3)]. right. exists k. split; auto. symmetry.
      apply obind_ok. exists (concat ps). split; [apply signed_records_spec; eauto|].
      apply check_sig_spec; [|rewrite sig_prefix_spec; auto].
      apply firstkey_in in H1 as [H1 _]. eapply Forall_forall in Hk; eauto.
Qed.

Lemma verify_rrsig_dbg e s keys rs : verify_rrsig e true s keys rs = Ok tt -> verify_rrsig e false s keys rs = Ok tt.
Proof.
  unfold verify_rrsig. destruct (existsb _ rs); [discriminate|].
  rewrite !verify_with_keys_spec. intros [[_ H]|(k & H1 & H)]; [discriminate|].
  right. exists k. split; auto. symmetry in H. apply obind_ok in H as (b & H2 & H3). symmetry.
  apply obind_ok. exists b. split; auto. apply signed_records_dbg; auto.
Qed.

Lemma verify_rrsig_sigby e dbg s keys rs : held_sig s -> Forall Held rs -> Forall (fun k => is_bytes (dk_pubkey k)) keys ->
  verify_rrsig e dbg s keys rs = Ok tt -> exists k, In k keys /\ SigBy e k s rs.
Proof.
  intros Hs Hr Hk H.
  assert (H' : verify_rrsig e false s keys rs = Ok tt) by (destruct dbg; [apply verify_rrsig_dbg|]; exact H).
  apply verify_rrsig_spec in H' as (H1 & k & msg & H2 & H3 & H4); auto.
  apply firstkey_in in H2 as [H2 H5]. exists k. split; auto. split; [exact H5|]. split; [exact H1|].
  exists (sort_by rr_cmp rs), msg. repeat split; auto; apply sort_perm.
Qed.
