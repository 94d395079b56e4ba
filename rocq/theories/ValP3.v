(** C18, C20-C24 from the invariant. *)
From Verif Require Import Base BaseP NameM WireM RRM Base32M ValM NameSpec NameP OrdP BitmapP RecSpec RecP CodecSpec CodecP
  ValSpec ValP ValP2.
From Coq Require Import Permutation Arith.
Local Open Scope N_scope.

Lemma verify_inv e dbg fuel inp v : verify_rr_stream e dbg fuel inp = Ok v ->
  exists st, zone_loop e dbg inp fuel vinit = Ok st /\ v_res st <> [] /\ v_inception st < v_expiry st /\
    proof_loop e (v_res st) (List.length (e_sort_needs e (v_needs st))) (rev (e_sort_needs e (v_needs st))) = Ok tt /\
    v = {| vr_rrs := filter (fun r => negb (rr_ty r =? T_NSEC) && negb (rr_ty r =? T_NSEC3)) (v_res st);
           vr_valid_from := v_inception st; vr_expires := v_expiry st; vr_max_cache_ttl := v_ttl st |}.
Proof.
  unfold verify_rr_stream. intros H. apply obind_ok in H as (st & H1 & H2). exists st. split; auto.
  unfold finish_verify in H2. destruct (is_nil (v_res st)) eqn:E1; [discriminate|].
  destruct (v_expiry st <=? v_inception st) eqn:E2; [discriminate|]. cbv zeta in H2.
  apply obind_ok in H2 as ([] & H3 & H4). apply is_nil_false in E1. apply N.leb_gt in E2.
  repeat split; auto. congruence.
Qed.

Lemma from_authentic e inp used s r : from_sig e inp used s -> In r (rrset inp (rs_name s) (rs_ty s)) ->
  Authentic e inp (fun x => In x used) r.
Proof. intros (z & H1 & H2 & _) Hr. exists z, s. auto. Qed.

Lemma authentic_mono e inp (u1 u2 : rrsig -> Prop) r : (forall s, u1 s -> u2 s) -> Authentic e inp u1 r -> Authentic e inp u2 r.
Proof.
  intros M (z & s & H1 & H2 & H3). exists z, s. split; [eapply trusted_mono; eauto|].
  split; [eapply signed_mono; eauto|auto].
Qed.

Lemma in_vr st r : In r (filter (fun r => negb (rr_ty r =? T_NSEC) && negb (rr_ty r =? T_NSEC3)) (v_res st)) <->
  In r (v_res st) /\ rr_ty r <> 47 /\ rr_ty r <> 50.
Proof. rewrite filter_In, andb_true_iff, !negb_true_iff, !N.eqb_neq. tauto. Qed.

Section Fixed.
  Variables (e : env) (dbg : bool) (fuel : nat) (inp : list RR) (v : verified).
  Hypothesis Hheld : Forall Held inp.
  Hypothesis Hok : verify_rr_stream e dbg fuel inp = Ok v.

  Lemma verified_authentic r : In r (vr_rrs v) -> Authentic e inp (fun _ => True) r.
  Proof.
    destruct (verify_inv _ _ _ _ _ Hok) as (st & H1 & _ & _ & _ & ->). cbn [vr_rrs].
    destruct (inv_final _ _ _ Hheld _ _ H1) as (used & vis & dn & I & _).
    intros Hr. apply in_vr in Hr as [Hr _].
    destruct (i_res _ _ _ _ _ _ _ I r Hr) as (s & Hf & Hs & _).
    eapply authentic_mono; [|eapply from_authentic; eauto]. auto.
  Qed.

  Lemma verified_input : (forall r, In r (vr_rrs v) -> In r inp /\ ~ metadata (rr_ty r)) /\ NoDup (vr_rrs v).
  Proof.
    destruct (verify_inv _ _ _ _ _ Hok) as (st & H1 & _ & _ & _ & ->). cbn [vr_rrs].
    destruct (inv_final _ _ _ Hheld _ _ H1) as (used & vis & dn & I & _). split.
    - intros r Hr. apply in_vr in Hr as (Hr & N1 & N2).
      destruct (i_res _ _ _ _ _ _ _ I r Hr) as (s & _ & Hs & N3 & N4 & N5 & _).
      apply in_rrset in Hs as (Hi & _ & Ht). split; auto. rewrite <- Ht in N3, N4, N5.
      unfold metadata. cbn. intuition congruence.
    - apply NoDup_filter. apply (i_nodup _ _ _ _ _ _ _ I).
  Qed.

  Lemma verified_window : exists used, used <> [] /\ (forall s, In s used -> In (RR_RRSig s) inp /\
        exists z k, TrustedZone e inp (fun x => In x used) z /\ In (RR_DnsKey k) (rrset inp z 48) /\
          SigBy e k s (rrset inp (rs_name s) (rs_ty s))) /\
    (forall r, In r (vr_rrs v) -> Authentic e inp (fun x => In x used) r) /\
    is_max (vr_valid_from v) (map (fun s => resolve_time (rs_inception s)) used) /\
    is_min (vr_expires v) (map (fun s => resolve_time (rs_expiration s)) used) /\
    is_min (vr_max_cache_ttl v) (map rs_orig_ttl used) /\
    vr_valid_from v < vr_expires v.
  Proof.
    destruct (verify_inv _ _ _ _ _ Hok) as (st & H1 & _ & Hlt & _ & ->). cbn [vr_rrs vr_valid_from vr_expires vr_max_cache_ttl].
    destruct (inv_final _ _ _ Hheld _ _ H1) as (used & vis & dn & I & _ & _ & Hne & _).
    exists used. split; auto. split; [apply (i_used _ _ _ _ _ _ _ I)|].
    split.
    { intros r Hr. apply in_vr in Hr as [Hr _]. destruct (i_res _ _ _ _ _ _ _ I r Hr) as (s & Hf & Hs & _).
      eapply from_authentic; eauto. }
    assert (MX : forall l, l <> [] -> is_max (fold_right N.max 0 l) l).
    { induction l as [|x l IH]; [congruence|]. intros _. cbn [fold_right].
      destruct l as [|y l].
      - cbn [fold_right]. rewrite N.max_0_r. split; [left; auto|]. repeat constructor. apply N.le_refl.
      - destruct IH as [IH1 IH2]; [congruence|]. split.
        + destruct (N.max_spec x (fold_right N.max 0 (y :: l))) as [[_ ->]|[_ ->]]; [right; auto|left; auto].
        + constructor; [lia|]. eapply Forall_impl; [|exact IH2]. intros a Ha. cbv beta in *. lia. }
    assert (MN : forall B l, l <> [] -> Forall (fun x => x <= B) l -> is_min (fold_right N.min B l) l).
    { intros B. induction l as [|x l IH]; [congruence|]. intros _ HB. inversion HB; subst. cbn [fold_right].
      destruct l as [|y l].
      - cbn [fold_right]. rewrite N.min_l by auto. split; [left; auto|]. repeat constructor. apply N.le_refl.
      - destruct IH as [IH1 IH2]; [congruence|auto|]. split.
        + destruct (N.min_spec x (fold_right N.min B (y :: l))) as [[_ ->]|[_ ->]]; [left; auto|right; auto].
        + constructor; [lia|]. eapply Forall_impl; [|exact IH2]. intros a Ha. cbv beta in *. lia. }
    assert (Hn : forall B (f : rrsig -> B), map f used <> []) by (intros B f; destruct used; cbn; congruence).
    assert (HU : forall s, In s used -> held_sig s).
    { intros s Hs. eapply held_rrsig; eauto. apply (i_used _ _ _ _ _ _ _ I); auto. }
    repeat split.
    - rewrite (i_inc _ _ _ _ _ _ _ I). apply MX; auto.
    - rewrite (i_inc _ _ _ _ _ _ _ I). apply MX; auto.
    - rewrite (i_exp _ _ _ _ _ _ _ I). apply MN; auto. apply Forall_forall. intros x Hx.
      apply in_map_iff in Hx as (s & <- & Hs). apply HU in Hs. destruct Hs as (_ & _ & _ & _ & _ & Hs & _).
      unfold is_u32 in Hs. unfold resolve_time. destruct (_ <? _); lia.
    - rewrite (i_exp _ _ _ _ _ _ _ I). apply MN; auto. apply Forall_forall. intros x Hx.
      apply in_map_iff in Hx as (s & <- & Hs). apply HU in Hs. destruct Hs as (_ & _ & _ & _ & _ & Hs & _).
      unfold is_u32 in Hs. unfold resolve_time. destruct (_ <? _); lia.
    - rewrite (i_ttl _ _ _ _ _ _ _ I). apply MN; auto. apply Forall_forall. intros x Hx.
      apply in_map_iff in Hx as (s & <- & Hs). apply HU in Hs. destruct Hs as (_ & _ & _ & _ & Hs & _).
      unfold is_u32 in Hs. lia.
    - rewrite (i_ttl _ _ _ _ _ _ _ I). apply MN; auto. apply Forall_forall. intros x Hx.
      apply in_map_iff in Hx as (s & <- & Hs). apply HU in Hs. destruct Hs as (_ & _ & _ & _ & Hs & _).
      unfold is_u32 in Hs. lia.
    - exact Hlt.
  Qed.

  Lemma sigby_supported k s rs : SigBy e k s rs -> supported (rs_alg s).
  Proof.
    intros (_ & _ & o & m & _ & _ & H). unfold supported. cbn. inversion H; auto 10.
  Qed.

  Lemma final_loop : exists st used vis dn, INV e dbg inp used vis dn st /\ closed inp vis dn /\ v_pending st = [] /\
    (forall z, Reached e inp z -> In z vis) /\
    (forall r, In r (vr_rrs v) <-> In r (v_res st) /\ rr_ty r <> 47 /\ rr_ty r <> 50) /\
    proof_loop e (v_res st) (List.length (e_sort_needs e (v_needs st))) (rev (e_sort_needs e (v_needs st))) = Ok tt /\
    zone_loop e dbg inp fuel vinit = Ok st.
  Proof.
    destruct (verify_inv _ _ _ _ _ Hok) as (st & H1 & _ & _ & Hp & ->). cbn [vr_rrs].
    destruct (inv_final _ _ _ Hheld _ _ H1) as (used & vis & dn & I & C & Pe & Hne & Hr).
    exists st, used, vis, dn. split; auto. split; auto. split; auto. split; [|split; [apply in_vr|split; [auto | exact H1]]].
    induction 1 as [|z s Hz IH Hs Ht]; auto.
    assert (Hs' := Hs). destruct Hs' as (S1 & _ & S2 & k & S3 & S4).
    assert (Hd : In s dn). { eapply C; eauto. apply in_zone_rrsigs. repeat split; auto. rewrite Ht. discriminate. }
    apply (i_done _ _ _ _ _ _ _ I) in Hd as (_ & [Hd|(_ & _ & [[_ Hd]|[Hd _]])]).
    - apply sigby_supported in S4. contradiction.
    - rewrite Pe in Hd. cbn in Hd. tauto.
    - contradiction.
  Qed.
  Lemma final_state : exists st used vis dn, INV e dbg inp used vis dn st /\ closed inp vis dn /\ v_pending st = [] /\
    (forall z, Reached e inp z -> In z vis) /\
    (forall r, In r (vr_rrs v) <-> In r (v_res st) /\ rr_ty r <> 47 /\ rr_ty r <> 50) /\
    proof_loop e (v_res st) (List.length (e_sort_needs e (v_needs st))) (rev (e_sort_needs e (v_needs st))) = Ok tt.
  Proof. destruct final_loop as (st & used & vis & dn & H). exists st, used, vis, dn. tauto. Qed.

  Lemma verified_complete z : Reached e inp z -> TrustedZone e inp (fun _ => True) z /\
    forall s, In (RR_RRSig s) inp -> rs_key_name s = z -> rs_ty s <> 48 ->
      ~ supported_alg (rs_alg s) \/
      (SignedByZone e inp (fun _ => True) z s /\ rs_ty s <> 46 /\
       (metadata (rs_ty s) \/ forall r, In r (rrset inp (rs_name s) (rs_ty s)) -> In r (vr_rrs v))).
  Proof.
    destruct final_state as (st & used & vis & dn & I & C & Pe & R & Hv & _). intros Hz. apply R in Hz.
    split.
    - eapply trusted_mono; [|apply (i_visited _ _ _ _ _ _ _ I); auto]. auto.
    - intros s Hs Hk Ht. assert (Hd : In s dn). { eapply C; eauto. apply in_zone_rrsigs. auto. }
      apply (i_done _ _ _ _ _ _ _ I) in Hd as (_ & [Hd|(_ & (k & K1 & K2) & Hd)]); [left; exact Hd|right].
      split; [|split].
      + split; auto. split; auto. split; auto. exists k. subst z. auto.
      + destruct Hd as [[Hd _]|(_ & Hd & _)]; [rewrite Hd; discriminate|auto].
      + destruct Hd as [[Hd _]|(D1 & D2 & D3 & D4 & _)]; [left; rewrite Hd; cbn; auto|].
        destruct (N.eq_dec (rs_ty s) 47) as [E|E]; [left; rewrite E; cbn; auto|].
        destruct (N.eq_dec (rs_ty s) 50) as [E'|E']; [left; rewrite E'; cbn; auto 10|].
        right. intros r Hr. apply Hv. split; auto. apply in_rrset in Hr as (_ & _ & Hr). rewrite Hr. auto.
  Qed.

  Lemma verified_suffix r : In r (vr_rrs v) -> exists z s p, TrustedZone e inp (fun _ => True) z /\
    SignedByZone e inp (fun _ => True) z s /\ In r (rrset inp (rs_name s) (rs_ty s)) /\ rr_name r = p ++ z.
  Proof.
    destruct (verify_inv _ _ _ _ _ Hok) as (st & H1 & _ & _ & _ & ->). cbn [vr_rrs].
    destruct (inv_final _ _ _ Hheld _ _ H1) as (used & vis & dn & I & _).
    intros Hr. apply in_vr in Hr as [Hr _].
    destruct (i_res _ _ _ _ _ _ _ I r Hr) as (s & (z & F1 & F2 & F3) & Hs & _).
    apply ends_with_spec in F3 as (p & F3). exists z, s, p.
    split; [eapply trusted_mono; [|exact F1]; auto|]. split; [eapply signed_mono; [|exact F2]; auto|]. split; auto.
    apply in_rrset in Hs as (_ & Hs & _). congruence.
  Qed.
End Fixed.

(** ** Denial of existence *)

(** The canonical order, for all names (also with empty labels). *)
Lemma labels_ord_nil_any (x : list (list N)) : x <> [] -> labels_ord [] x = Lt.
Proof. destruct x; [congruence|reflexivity]. Qed.

Lemma split_dotted ls : Forall nodot ls -> rev (split_on 46 (dotted ls)) = [] :: (match ls with [] => [[]] | _ => rev ls end).
Proof.
  intros H. destruct ls as [|l ls]; [reflexivity|]. cbn [dotted]. rewrite split_dots by auto.
  rewrite rev_app_distr. reflexivity.
Qed.

Lemma nsec_ord_labels a b la lb : LabelsOf a la -> LabelsOf b lb ->
  (nsec_ord a b = Lt <-> canonical_lt la lb).
Proof.
  intros (-> & A2 & A3) (-> & B2 & B3). apply labels_ok_nodot in A2, B2.
  unfold nsec_ord, canonical_lt. change dot with 46. rewrite !split_dotted by auto.
  rewrite <- !map_rev. rewrite <- labels_ord_lex.
  cbn [labels_ord label_ord].
  destruct la as [|x la], lb as [|y lb].
  - cbn. tauto.
  - cbn [rev]. assert (E : rev lb ++ [y] <> []) by (destruct (rev lb); discriminate).
    split; intros _.
    + destruct (rev lb ++ [y]); [congruence|reflexivity].
    + destruct (rev lb ++ [y]) as [|w t] eqn:Ew; [congruence|]. cbn [labels_ord].
      destruct w as [|c w]; [|reflexivity]. cbn [label_ord].
      destruct t as [|t0 t]; [|reflexivity].
      exfalso. apply B3. apply (f_equal (@rev _)) in Ew. rewrite rev_app_distr, rev_involutive in Ew. exact Ew.
  - cbn [rev]. assert (E : rev la ++ [x] <> []) by (destruct (rev la); discriminate).
    destruct (rev la ++ [x]) as [|w t] eqn:Ew; [congruence|]. cbn [labels_ord].
    split; [|discriminate]. destruct w as [|c w]; cbn [label_ord]; [|discriminate]. destruct t; discriminate.
  - reflexivity.
Qed.

Lemma nsec_ord_names a b : valid_name a -> valid_name b ->
  (nsec_ord a b = Lt <-> name_lt a b) /\ (nsec_ord a b = Eq <-> a = b).
Proof.
  intros Ha Hb. destruct (valid_labels a Ha) as (la & La & _), (valid_labels b Hb) as (lb & Lb & _). split.
  - rewrite (nsec_ord_labels a b la lb La Lb). unfold name_lt. split; [eauto|].
    intros (xa & xb & X1 & X2 & X3). rewrite (labelsof_inj _ _ _ La X1), (labelsof_inj _ _ _ Lb X2). auto.
  - rewrite nsec_ord_eq. apply valid_name_spec in Ha as [_ Ha], Hb as [_ Hb]. rewrite Ha, Hb. reflexivity.
Qed.

Lemma has_type_spec m ty : mask_contains m ty = true <-> has_type m ty.
Proof. rewrite contains_testbit. reflexivity. Qed.

Lemma nsec_proves_spec n nm ty : valid_name (ns_name n) -> valid_name (ns_next n) -> valid_name nm ->
  nsec_proves nm ty n = true -> nsec_weak n nm ty.
Proof.
  intros H1 H2 H3 H. unfold nsec_proves in H. apply orb_true_iff in H as [H|H].
  - apply andb_true_iff in H as [Ha Hb]. left. apply bytes_eqb_eq in Ha. split; auto.
    rewrite <- has_type_spec. apply negb_true_iff in Hb. congruence.
  - right. unfold nsec_contained in H. apply andb_true_iff in H as [Ha Hb].
    destruct (nsec_ord_names (ns_name n) nm H1 H3) as [L1 E1].
    destruct (nsec_ord_names nm (ns_next n) H3 H2) as [L2 E2].
    split.
    + unfold name_le. destruct (nsec_ord (ns_name n) nm); try discriminate; [left; apply E1|right; apply L1]; auto.
    + apply L2. rewrite nsec_ord_antisym. destruct (nsec_ord (ns_next n) nm); try discriminate. reflexivity.
Qed.

Lemma nsec3_iter_last e salt n h : nsec3_iter e salt (S n) h = e_sha1 e (nsec3_iter e salt n h ++ salt).
Proof.
  revert h. induction n as [|n IH]; intros h; [reflexivity|].
  change (nsec3_iter e salt (S (S n)) h) with (nsec3_iter e salt (S n) (e_sha1 e (h ++ salt))). rewrite IH. reflexivity.
Qed.
Lemma nsec3_hash_spec e nm salt it : nsec3_hash e nm salt it = n3_hash e salt (write_name nm) (N.to_nat it).
Proof.
  unfold nsec3_hash. induction (N.to_nat it) as [|k IH]; [reflexivity|].
  rewrite nsec3_iter_last, IH. reflexivity.
Qed.

Lemma nsec3_table_spec e nm ns : forall tbl,
  (forall it salt h, In (it, salt, h) tbl -> h = nsec3_hash e nm salt it /\ it <= 2500) ->
  forall it salt h, In (it, salt, h) (nsec3_table e nm ns tbl) -> h = nsec3_hash e nm salt it /\ it <= 2500.
Proof.
  induction ns as [|n ns IH]; intros tbl Ht; cbn [nsec3_table]; auto.
  destruct (2500 <? n3_iters n) eqn:E1; [exact (IH tbl Ht)|]. destruct (negb _); [exact (IH tbl Ht)|].
  destruct (existsb _ _); [exact (IH tbl Ht)|]. cbv zeta.
  apply N.ltb_ge in E1.
  assert (Ht' : forall it salt h, In (it, salt, h) (tbl ++ [(n3_iters n, n3_salt n, nsec3_hash e nm (n3_salt n) (n3_iters n))]) ->
             h = nsec3_hash e nm salt it /\ it <= 2500).
  { intros it salt h Hi. apply in_app_iff in Hi as [Hi|[Hi|[]]]; auto. inversion Hi; subst. auto. }
  destruct (2 <=? len _); [exact Ht'|exact (IH _ Ht')].
Qed.

Lemma n3_owner_spec n a b h : is_bytes a -> n3_name n = a ++ 46 :: b -> ~ In 46 a -> (exists q, a ++ 46 :: b = q ++ [46]) ->
  b32_decode a = Some h -> len h = 20 -> n3_owner_hash n h.
Proof.
  intros Ha Hn Hd (q & Hq) H32 Hl. apply decode_spec in H32; auto.
  (* b is empty or ends with a dot *)
  assert (Hb : exists ls, b = dots ls).
  { destruct (list_eq_dec N.eq_dec b []) as [->|Hb]; [exists []; reflexivity|].
    destruct (exists_last Hb) as (b' & x & ->).
    change (a ++ 46 :: b' ++ [x]) with (a ++ (46 :: b') ++ [x]) in Hq. rewrite app_assoc in Hq.
    apply app_inj_tail in Hq as [_ ->]. exists (split_on 46 b'). symmetry. apply dots_split. }
  destruct Hb as (ls & ->). exists a, ls. rewrite dots_cons. repeat split; auto.
Qed.

Lemma nsec3_proves_spec e nm ns ty n m : Held (RR_NSec3 n) ->
  nsec3_proves (nsec3_table e nm ns []) ty n = Some m ->
  exists h nh, nsec3_range e n nm h nh /\ (m = true <-> h = nh) /\
    ((h = nh /\ ~ has_type (n3_types n) ty) \/ ((h = nh \/ lex N.lt h nh) /\ lex N.lt nh (n3_next_hash n))).
Proof.
  intros Hh. assert (Hv := held_name _ Hh). cbn [rr_name] in Hv.
  unfold nsec3_proves. destruct (n3_flags n =? 0) eqn:Ef; cbn [negb]; [|discriminate].
  destruct (n3_algo n =? 1) eqn:Ea; cbn [negb]; [|discriminate].
  destruct (find (n3_params_eqb n) _) as [[[it salt] h]|] eqn:Efi; [|discriminate].
  apply find_some in Efi as [F1 F2]. unfold n3_params_eqb in F2. cbn [fst snd] in F2.
  apply andb_true_iff in F2 as [F2 F3]. apply N.eqb_eq in F2. apply bytes_eqb_eq in F3. subst it salt.
  apply nsec3_table_spec in F1 as [F1 F4]; [|intros ? ? ? []].
  cbv zeta. destruct (split_once dot (n3_name n)) as [[a b]|] eqn:Es.
  2:{ exfalso. apply split_once_none in Es. apply valid_name_spec in Hv as [(ls & L1 & L2 & _) _].
      destruct (dots_nonnil ls L1) as (q & Hq). apply Es. rewrite L2, Hq. apply in_app_iff. right. left. reflexivity. }
  apply split_once_spec in Es as [Es1 Es2].
  destruct (b32_decode a) as [start|] eqn:E32; [|discriminate].
  destruct (negb (len start =? 20) || negb (len (n3_next_hash n) =? 20)) eqn:El; [discriminate|].
  apply orb_false_iff in El as [El1 El2]. apply negb_false_iff, N.eqb_eq in El1, El2.
  intros H. exists start, h.
  assert (HB : is_bytes a).
  { apply valid_name_spec in Hv as [(ls & L1 & L2 & L3 & _) _]. apply Forall_forall. intros c Hc.
    assert (Hc' : In c (dots ls)) by (rewrite <- L2, Es1; apply in_app_iff; auto).
    assert (G : Forall (fun x => x < 256) (dots ls)).
    { apply forall_dots. split; [|intros _; reflexivity]. eapply Forall_impl; [|exact L3].
      intros l [_ Hl]. eapply Forall_impl; [|exact Hl]. intros x [Hx _]. lia. }
    eapply Forall_forall in G; eauto. }
  assert (HR : nsec3_range e n nm start h).
  { apply N.eqb_eq in Ef, Ea. repeat split; auto.
    - eapply n3_owner_spec; eauto.
      apply valid_name_spec in Hv as [(ls & L1 & L2 & _) _]. destruct (dots_nonnil ls L1) as (q & Hq).
      exists q. rewrite <- Hq, <- L2. auto.
    - rewrite F1. apply nsec3_hash_spec. }
  split; auto.
  destruct (bytes_eqb start h) eqn:Em.
  - apply bytes_eqb_eq in Em.
    destruct (_ || _) eqn:Eo in H; [|discriminate]. split; [split; [auto|congruence]|].
    apply orb_true_iff in Eo as [Eo|Eo].
    + left. split; auto. cbn [andb] in Eo. rewrite <- has_type_spec. apply negb_true_iff in Eo. congruence.
    + right. split; auto. apply andb_true_iff in Eo as [_ Eo].
      apply bytes_cmp_lex. rewrite bytes_cmp_antisym. destruct (bytes_cmp (n3_next_hash n) h); try discriminate. reflexivity.
  - assert (Em' := Em). apply bytes_eqb_neq in Em'. cbn [andb orb] in H.
    destruct (_ && _) eqn:Eo in H; [|discriminate]. split; [split; [congruence|contradiction]|].
    right. apply andb_true_iff in Eo as [Eo1 Eo]. split.
    + right. apply bytes_cmp_lex. destruct (bytes_cmp start h) eqn:Ec; try discriminate; auto.
      apply bytes_cmp_eq in Ec. contradiction.
    + apply bytes_cmp_lex. rewrite bytes_cmp_antisym. destruct (bytes_cmp (n3_next_hash n) h); try discriminate. reflexivity.
Qed.

(** A need was discharged by a record of [res]. *)
Definition Discharged (e : env) (res : list RR) (nm : list N) (ty : N) : Prop :=
  (exists n, In (RR_NSec n) res /\ nsec_weak n nm ty) \/ (exists n, In (RR_NSec3 n) res /\ nsec3_weak e n nm ty).

Lemma in_nsec_search res z n : In n (nsec_search res z) -> In (RR_NSec n) res.
Proof.
  unfold nsec_search. rewrite filter_In, in_flat_map. intros [(r & H1 & H2) _].
  destruct r; cbn in H2; try contradiction. destruct H2 as [->|[]]; auto.
Qed.
Lemma in_nsec3_search res z n : In n (nsec3_search res z) -> In (RR_NSec3 n) res.
Proof.
  unfold nsec3_search. rewrite filter_In, in_flat_map. intros [(r & H1 & H2) _].
  destruct r; cbn in H2; try contradiction. destruct H2 as [->|[]]; auto.
Qed.

Lemma nsec3_find_spec tbl ty ns n m : nsec3_find tbl ty ns = Some (n, m) -> In n ns /\ nsec3_proves tbl ty n = Some m.
Proof.
  induction ns as [|x ns IH]; cbn [nsec3_find]; [discriminate|].
  destruct (nsec3_proves tbl ty x) eqn:E.
  - intros H. assert (x = n /\ b = m) as [-> ->] by (split; congruence). split; [left|]; auto.
  - intros H. apply IH in H as [H1 H2]. split; [right|]; auto.
Qed.

Lemma discharge_spec e res nm z ty needs needs' : Forall Held res -> valid_name nm ->
  discharge e res (nm, z, ty) needs = Some needs' ->
  Discharged e res nm ty /\ (forall nd, In nd needs -> In nd needs' \/ (fst (fst nd) = nm /\ Discharged e res nm (snd nd))) /\
  (forall nd, In nd needs' -> In nd needs).
Proof.
  intros Hh Hv. unfold discharge. rewrite Forall_forall in Hh.
  assert (RT : forall m types P, (forall ty', (m = false \/ ~ has_type types ty') -> Discharged e res nm ty') -> P = retain_needs nm m types needs ->
     (forall nd, In nd needs -> In nd P \/ (fst (fst nd) = nm /\ Discharged e res nm (snd nd))) /\ (forall nd, In nd P -> In nd needs)).
  { intros m types P HP ->. unfold retain_needs. split.
    - intros nd Hn. rewrite filter_In.
      destruct (negb (bytes_eqb (fst (fst nd)) nm) || (m && mask_contains types (snd nd))) eqn:E; [left; auto|right].
      apply orb_false_iff in E as [E1 E2]. apply negb_false_iff, bytes_eqb_eq in E1. split; auto.
      apply HP. destruct m; auto. right. cbn [andb] in E2. rewrite <- has_type_spec. congruence.
    - intros nd Hn. apply filter_In in Hn. tauto. }
  destruct (find (nsec_proves nm ty) (nsec_search res z)) as [n|] eqn:Ef.
  - apply find_some in Ef as [F1 F2]. apply in_nsec_search in F1.
    assert (Hn := Hh _ F1). assert (V1 := held_name _ Hn). cbn [rr_name] in V1.
    assert (V2 : valid_name (ns_next n)) by (unfold Held in Hn; cbn [typed_rr] in Hn; apply Hn).
    assert (W : forall ty', nsec_proves nm ty' n = true -> Discharged e res nm ty').
    { intros ty' H. left. exists n. split; auto. apply nsec_proves_spec; auto. }
    intros H. split; [apply W; auto|].
    eapply RT; [|symmetry; injection H; intros X; exact X].
    intros ty' Hm. apply W. unfold nsec_proves in *. apply orb_true_iff.
    destruct (nsec_contained n nm); [right; auto|left]. rewrite orb_false_r in F2.
    apply andb_true_iff in F2 as [F2 _]. rewrite F2. cbn [andb].
    destruct Hm as [Hm|Hm]; [congruence|]. rewrite <- has_type_spec in Hm.
    destruct (mask_contains (ns_types n) ty'); [exfalso; auto|reflexivity].
  - cbv zeta. destruct (nsec3_find _ ty (nsec3_search res z)) as [[n m]|] eqn:E3; [|discriminate].
    apply nsec3_find_spec in E3 as [F1 F2]. apply in_nsec3_search in F1. assert (Hn := Hh _ F1).
    apply nsec3_proves_spec in F2 as (h & nh & R & M & P); auto.
    intros H. split.
    { right. exists n. split; auto. exists h, nh. auto. }
    eapply RT; [|symmetry; injection H; intros X; exact X].
    intros ty' Hm. right. exists n. split; auto. exists h, nh. split; auto.
    destruct Hm as [Hm|Hm].
    + right. destruct P as [[P _]|P]; auto. exfalso. apply M in P. congruence.
    + destruct P as [[P _]|P]; auto.
Qed.

Lemma proof_loop_spec e res : Forall Held res -> forall fuel needs,
  (forall nd, In nd needs -> valid_name (fst (fst nd))) -> proof_loop e res fuel needs = Ok tt ->
  forall nd, In nd needs -> Discharged e res (fst (fst nd)) (snd nd).
Proof.
  intros Hh. induction fuel as [|fuel IH]; intros needs Hv H nd Hn; destruct needs as [|x needs]; cbn [proof_loop] in H;
    try contradiction; try discriminate.
  destruct (discharge e res x needs) as [needs'|] eqn:E; [|discriminate].
  destruct x as [[nm z] ty]. apply discharge_spec in E as (D1 & D2 & D3); auto.
  - destruct Hn as [<-|Hn]; auto. destruct (D2 nd Hn) as [G|[-> G]]; auto.
    apply IH with (needs := needs'); auto. intros y Hy. apply Hv. right. auto.
  - apply (Hv (nm, z, ty)). left. auto.
Qed.

Section Denial.
  Variables (e : env) (dbg : bool) (fuel : nat) (inp : list RR) (v : verified).
  Hypothesis Hheld : Forall Held inp.
  Hypothesis Hsort : SortsNeeds e.
  Hypothesis Hok : verify_rr_stream e dbg fuel inp = Ok v.

  Lemma wildcard_discharged r z s : In r (vr_rrs v) -> Reached e inp z -> SignedByZone e inp (fun _ => True) z s ->
    In r (rrset inp (rs_name s) (rs_ty s)) ->
    (exists ls, LabelsOf (rr_name r) ls /\ N.of_nat (List.length ls) = rs_labels s) \/
    (exists nc st, NextCloser s r nc /\ zone_loop e dbg inp fuel vinit = Ok st /\ Discharged e (v_res st) nc (rr_ty r) /\
      (forall x, In x (v_res st) -> Authentic e inp (fun _ => True) x)).
  Proof.
    intros Hr Hz Hs Hc.
    destruct (final_loop e dbg fuel inp v Hheld Hok) as (st & used & vis & dn & I & C & Pe & R & Hv & Hp & HZ).
    apply R in Hz. assert (Hc' := Hc). apply in_rrset in Hc' as (Hi & Hn & Ht).
    apply Hv in Hr as (Hr & N1 & N2).
    destruct Hs as (S1 & _ & S2 & k & S3 & S4).
    assert (HI := Hheld). rewrite Forall_forall in HI.
    destruct (i_res _ _ _ _ _ _ _ I r Hr) as (s0 & _ & Hc0 & T1 & T2 & T3 & _).
    assert (T0 : rs_ty s0 = rs_ty s) by (apply in_rrset in Hc0 as (_ & _ & X); congruence).
    assert (Hd : In s dn). { eapply C; eauto. apply in_zone_rrsigs. repeat split; auto. congruence. }
    apply (i_done _ _ _ _ _ _ _ I) in Hd as (_ & [Hd|(_ & _ & [[Hd _]|(_ & _ & _ & _ & nd & Hw & Hnd)])]).
    { apply sigby_supported in S4. contradiction. }
    { congruence. }
    (* the signature fits the owner name *)
    destruct S4 as (_ & _ & ord & msg & Pm & (ps & F2 & _) & _).
    assert (Ho : exists owner, SignedOwner s r owner).
    { assert (Hin : In r ord) by (eapply Permutation_in; eauto).
      clear - F2 Hin. induction F2 as [|x y l l' Hxy _ IH]; [contradiction|].
      destruct Hin as [->|Hin]; auto. destruct Hxy as (o & Ho & _). eauto. }
    destruct Ho as (owner & Ho). inversion Ho as [ls L1 L2|L1|pre suf L1 L2 L3 L4]; subst owner.
    - left. eauto.
    - contradiction.
    - right. destruct (exists_last L3) as (pre' & l & ->). rewrite <- app_assoc in L2. cbn [app] in L2.
      set (nc := dotted (l :: suf)). exists nc, st.
      assert (NC : NextCloser s r nc) by (exists pre', l, suf; auto). split; auto.
      assert (Hva := held_name _ (HI r Hi)). destruct (valid_labels _ Hva) as (ls & La & Lb).
      assert (ls = pre' ++ l :: suf) by (eapply labelsof_inj; eauto). subst ls.
      assert (HN : valid_name (rs_name s)) by (rewrite <- Hn; auto).
      assert (W : wildcard_need dbg s = Ok [(nc, rs_key_name s, rs_ty s)]).
      { unfold wildcard_need in Hw |- *. rewrite <- Hn in *.
        rewrite (labels_of _ _ La Lb) in *.
        assert (E1 : (rs_labels s =? N.of_nat (List.length (pre' ++ l :: suf))) = false).
        { apply N.eqb_neq. rewrite app_length. cbn [List.length]. lia. }
        rewrite E1 in *. replace (rs_ty s =? T_NSEC) with false in * by (symmetry; apply N.eqb_neq; rewrite <- Ht; exact N1).
        cbn [negb andb] in *. destruct (rs_ty s =? T_NSEC3); [discriminate|]. destruct (dbg && _); [discriminate|].
        assert (E2 : as_u8 (rs_labels s + 1) = rs_labels s + 1).
        { apply as_u8_small. rewrite app_length in Lb. cbn [List.length] in Lb. lia. }
        rewrite E2 in *. rewrite (trailing_of _ _ _ La Lb) in *.
        replace (N.of_nat (List.length (pre' ++ l :: suf)) <? rs_labels s + 1) with false.
        2:{ symmetry. apply N.ltb_ge. rewrite app_length. cbn [List.length]. lia. }
        do 4 f_equal. unfold nc. f_equal.
        replace (List.length (pre' ++ l :: suf) - N.to_nat (rs_labels s + 1))%nat with (List.length pre').
        2:{ rewrite app_length. cbn [List.length]. lia. }
        rewrite skipn_app, skipn_all, Nat.sub_diag. reflexivity. }
      assert (nd = [(nc, rs_key_name s, rs_ty s)]) by congruence. subst nd.
      assert (Hneed : In (nc, rs_key_name s, rs_ty s) (v_needs st)) by (apply Hnd; left; auto).
      assert (Hres : Forall Held (v_res st)).
      { apply Forall_forall. intros x Hx. destruct (i_res _ _ _ _ _ _ _ I x Hx) as (y & _ & Hy & _).
        apply in_rrset in Hy. apply HI. tauto. }
      assert (D : Discharged e (v_res st) (fst (fst (nc, rs_key_name s, rs_ty s))) (snd (nc, rs_key_name s, rs_ty s))).
      { eapply proof_loop_spec; eauto.
        - intros nd Hin. apply in_rev in Hin. apply (Permutation_in nd (Permutation_sym (Hsort _))) in Hin.
          destruct (i_needs _ _ _ _ _ _ _ I nd Hin) as (x & (zx & _ & X2 & _) & X3).
          assert (Hx : valid_name (rs_name x)).
          { destruct X2 as (X2 & _). apply HI in X2. apply (held_name _ X2). }
          unfold wildcard_need in X3. destruct (_ && _); [|discriminate]. destruct (_ =? _); [discriminate|].
          destruct (_ && _); [discriminate|]. destruct (trailing_n_labels _ _) eqn:Et; [|discriminate].
          apply trailing_valid in Et as [Et _]; auto. inversion X3; subst. exact Et.
        - apply -> in_rev. eapply Permutation_in; [apply Hsort|]. auto. }
      cbn [fst snd] in D. rewrite Ht.
      assert (AU : forall x, In x (v_res st) -> Authentic e inp (fun _ => True) x).
      { intros x Hx. destruct (i_res _ _ _ _ _ _ _ I x Hx) as (y & Hf & Hy & _).
        eapply authentic_mono; [|eapply from_authentic; eauto]. auto. }
      auto.
  Qed.
  Lemma wildcard_denied r z s : In r (vr_rrs v) -> Reached e inp z -> SignedByZone e inp (fun _ => True) z s ->
    In r (rrset inp (rs_name s) (rs_ty s)) ->
    (exists ls, LabelsOf (rr_name r) ls /\ N.of_nat (List.length ls) = rs_labels s) \/
    (exists nc, NextCloser s r nc /\ WeaklyDenied e inp nc (rr_ty r)).
  Proof.
    intros H1 H2 H3 H4. destruct (wildcard_discharged r z s H1 H2 H3 H4) as [H | (nc & st & N & _ & D & AU)]; [left; exact H | right]. exists nc. split; [exact N |].
    destruct D as [(n & D1 & D2)|(n & D1 & D2)]; [left|right]; exists n; split; auto.
  Qed.
End Denial.
