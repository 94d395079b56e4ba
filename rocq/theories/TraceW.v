(** Runs with many digests, many checks and a refusal. *)
From Coq Require Import Lia PeanoNat String Permutation.
From Verif Require Import Base BaseP NameSpec NameM NameP WireM RRM SerM RecSpec RecP RecP2 ValM ValSpec HeldP ValP ValP2 ValP3 ValP4 ValW VisitP VisitW TraceM TraceSpec TraceP.
Local Open Scope N_scope.

(** [n] DS records for the zone a., none of them right, and [m] DNSKEYs. *)
Definition p_ds : ds := {| ds_name := zn 1; ds_key_tag := 20326; ds_alg := 8; ds_digest_type := 2; ds_digest := [] |}.
Definition product (n m : nat) : list RR :=
  [RR_DnsKey (v_key [46]); RR_RRSig (v_sig [46] 48 [46]); RR_RRSig (v_sig (zn 1) 43 [46]); RR_RRSig (v_sig (zn 1) 48 (zn 1))] ++ repeat (RR_DS p_ds) n ++ repeat (RR_DnsKey (v_key (zn 1))) m.

Lemma rep_filter {A} (f : A -> bool) x n : filter f (repeat x n) = if f x then repeat x n else [].
Proof. induction n as [| n IH]; cbn [repeat filter]; [destruct (f x); reflexivity |]. rewrite IH. destruct (f x); reflexivity. Qed.
Lemma rep_none {A B} (g : A -> list B) x n : g x = [] -> flat_map g (repeat x n) = [].
Proof. intros H. induction n; cbn [repeat flat_map]; [reflexivity | rewrite H; assumption]. Qed.
Lemma rep_one {A B} (g : A -> list B) x y n : g x = [y] -> flat_map g (repeat x n) = repeat y n.
Proof. intros H. induction n; cbn [repeat flat_map]; [reflexivity | rewrite H, IHn; reflexivity]. Qed.
Lemma product_sigs n m : rrsigs (product n m) = [v_sig [46] 48 [46]; v_sig (zn 1) 43 [46]; v_sig (zn 1) 48 (zn 1)].
Proof. unfold rrsigs, product. rewrite !flat_map_app, (rep_none _ (RR_DS p_ds)), (rep_none _ (RR_DnsKey _)) by reflexivity. reflexivity. Qed.
Lemma product_keys n m z : zone_dnskeys (product n m) z = filter (fun k => bytes_eqb (dk_name k) z) (v_key [46] :: repeat (v_key (zn 1)) m).
Proof. unfold zone_dnskeys, product. rewrite !flat_map_app, (rep_none _ (RR_DS p_ds)), (rep_one as_dnskey (RR_DnsKey (v_key (zn 1))) (v_key (zn 1))) by reflexivity. reflexivity. Qed.
Lemma product_covered n m : covered (product n m) (v_sig (zn 1) 43 [46]) = repeat (RR_DS p_ds) n.
Proof. unfold covered, product. rewrite !filter_app, !rep_filter. cbn -[repeat]. rewrite app_nil_r. reflexivity. Qed.
Lemma ds_signed n : exists p, signed_records false (v_sig (zn 1) 43 [46]) (sort_by rr_cmp (repeat (RR_DS p_ds) n)) = Ok p.
Proof.
  assert (F : Forall (eq (RR_DS p_ds)) (sort_by rr_cmp (repeat (RR_DS p_ds) n))).
  { apply Forall_forall. intros r I. apply (Permutation_in r (Permutation_sym (sort_perm rr_cmp (repeat (RR_DS p_ds) n)))) in I. symmetry. eapply repeat_spec, I. }
  induction F as [| x l <- F [p IH]]; [eexists; reflexivity |]. cbn [signed_records]. rewrite IH. eexists. vm_compute. reflexivity.
Qed.
Lemma p_rrsig n : exists ev, t_verify_rrsig toy_env false (v_sig (zn 1) 43 [46]) [v_key [46]] (repeat (RR_DS p_ds) n) = ([ev], Ok tt) /\ hashb ev = false.
Proof.
  unfold t_verify_rrsig. replace (existsb _ (repeat (RR_DS p_ds) n)) with false.
  - cbn [t_verify_with_keys]. change (key_usable (v_sig (zn 1) 43 [46]) (v_key [46])) with true. cbv iota. destruct (ds_signed n) as [p ->]. eexists. split; reflexivity.
  - induction n as [| n IH]; [reflexivity |]. cbn [repeat existsb]. rewrite <- IH. reflexivity.
Qed.
Lemma p_loop n k : let r := t_ds_loop toy_env k (v_key (zn 1)) (repeat p_ds n) in List.length (filter hashb (fst r)) = n /\ snd r = false.
Proof.
  cbv zeta. induction n as [| n [IH1 IH2]]; [split; reflexivity |]. cbn [repeat t_ds_loop]. change ((ds_alg p_ds =? dk_alg (v_key (zn 1))) && (key_tag (v_key (zn 1)) =? ds_key_tag p_ds)) with true. cbv iota.
  change ((ds_digest_type p_ds =? 1) && k) with false. change (ds_digest_type p_ds =? 2) with true. cbv iota. change (bytes_eqb _ (ds_digest p_ds)) with false. cbv iota. destruct (t_ds_loop toy_env k (v_key (zn 1)) (repeat p_ds n)) as [evs b]. cbn [fst snd filter hashb List.length] in *. split; [lia | exact IH2].
Qed.
Lemma p_validated n m : let r := t_validated toy_env (repeat p_ds n) (repeat (v_key (zn 1)) m) in List.length (filter hashb (fst r)) = (n * m)%nat /\ snd r = [].
Proof.
  cbv zeta. induction m as [| m [IH1 IH2]]; [split; [cbn; lia | reflexivity] |]. change (repeat (v_key (zn 1)) (S m)) with (v_key (zn 1) :: repeat (v_key (zn 1)) m). cbn [t_validated]. destruct (p_loop n (trust_sha1 (repeat p_ds n))) as [L1 L2].
  destruct (t_ds_loop toy_env (trust_sha1 (repeat p_ds n)) (v_key (zn 1)) (repeat p_ds n)) as [evs b]. destruct (t_validated toy_env (repeat p_ds n) (repeat (v_key (zn 1)) m)) as [evs' ks]. cbn [fst snd] in *. subst. rewrite filter_app, app_length. split; [lia | reflexivity].
Qed.
Lemma p_child n m : (1 <= n)%nat -> let r := t_verify_dnskeys toy_env false [v_sig (zn 1) 48 (zn 1)] (repeat p_ds n) (repeat (v_key (zn 1)) m) in
  List.length (filter hashb (fst r)) = (n * m)%nat /\ snd r = Err Invalid.
Proof.
  intros N1. unfold t_verify_dnskeys. destruct n as [| n']; [lia |]. change (is_nil (repeat p_ds (S n'))) with false. change (negb (existsb (fun d => (ds_digest_type d =? 1) || (ds_digest_type d =? 2) || (ds_digest_type d =? 4)) (repeat p_ds (S n')))) with false. cbv iota.
  destruct (p_validated (S n') m) as [V1 V2]. destruct (t_validated toy_env (repeat p_ds (S n')) (repeat (v_key (zn 1)) m)) as [evs ks]. cbn [fst snd] in V1, V2. subst ks.
  cbn [t_verify_dnskey_sigs]. unfold t_verify_rrsig. destruct (existsb _ _); cbn [t_verify_with_keys fst snd]; rewrite app_nil_r; split; auto.
Qed.
Lemma product_work n m : (1 <= n)%nat -> hashes (fst (t_verify_rr_stream toy_env false 2 (product n m))) = (1 + n * m)%nat.
Proof.
  intros N1. unfold hashes, t_verify_rr_stream. cbn [t_zone_loop]. change (bytes_eqb (v_zone vinit) root_name || negb (is_nil (v_pending vinit))) with true. cbv iota.
  assert (Z1 : exists evs st, t_zone_step toy_env false (product n m) vinit = (evs, Ok st) /\ List.length (filter hashb evs) = 1%nat /\ v_zone st = [46] /\ v_pending st = [(zn 1, repeat p_ds n)]).
  { unfold t_zone_step. change (pop_zone vinit) with (vinit, @None (list ds)). cbv zeta iota. change (bytes_eqb (v_zone vinit) root_name) with true. cbv iota. change (v_zone vinit) with [46].
    unfold dnskey_rrsigs, zone_rrsigs. rewrite product_sigs, product_keys. cbn [filter]. rewrite rep_filter. change (bytes_eqb (dk_name (v_key [46])) [46]) with true. change (bytes_eqb (dk_name (v_key (zn 1))) [46]) with false. cbv iota.
    change (if bytes_eqb (rs_name (v_sig [46] 48 [46])) [46] && (rs_ty (v_sig [46] 48 [46]) =? T_DNSKEY) then _ else _) with [v_sig [46] 48 [46]].
    change (if bytes_eqb (rs_key_name (v_sig [46] 48 [46])) [46] && negb (rs_ty (v_sig [46] 48 [46]) =? T_DNSKEY) then _ else _) with [v_sig (zn 1) 43 [46]].
    assert (R : exists evs, t_verify_dnskeys toy_env false [v_sig [46] 48 [46]] root_hints [v_key [46]] = (evs, Ok (v_sig [46] 48 [46])) /\ List.length (filter hashb evs) = 1%nat) by (eexists; split; vm_compute; reflexivity).
    destruct R as (evs & -> & R). cbn [t_sigs_loop]. unfold t_sig_step. change (negb (ends_with (rs_name (v_sig (zn 1) 43 [46])) [46])) with false. cbv iota.
    rewrite product_keys, product_covered. cbn [filter]. rewrite rep_filter. change (bytes_eqb (dk_name (v_key [46])) [46]) with true. change (bytes_eqb (dk_name (v_key (zn 1))) [46]) with false. cbv iota.
    destruct (p_rrsig n) as (ev & -> & HE). cbv zeta iota. change ((rs_ty (v_sig (zn 1) 43 [46]) =? T_RRSIG) || (rs_ty (v_sig (zn 1) 43 [46]) =? T_DNSKEY)) with false. change (rs_ty (v_sig (zn 1) 43 [46]) =? T_DS) with true. cbv iota.
    eexists. eexists. split; [reflexivity |]. split; [cbn [filter hashb]; rewrite filter_app, app_length, R; cbn [app filter]; rewrite HE; reflexivity |]. unfold push_ds. cbn [existsb v_pending note_sig vinit v_zone]. split; [reflexivity |].
    rewrite product_covered, (rep_one as_ds (RR_DS p_ds) p_ds) by reflexivity. reflexivity. }
  destruct Z1 as (evs & st & -> & R1 & R2 & R3). rewrite R2, R3. change (bytes_eqb [46] root_name || _) with true. cbv iota. unfold t_zone_step at 1. unfold pop_zone. rewrite R3. cbv zeta iota. cbn [v_zone]. change (bytes_eqb (zn 1) root_name) with false. cbv iota.
  unfold dnskey_rrsigs. rewrite product_sigs, product_keys. cbn [filter]. rewrite rep_filter. change (bytes_eqb (dk_name (v_key [46])) (zn 1)) with false. change (bytes_eqb (dk_name (v_key (zn 1))) (zn 1)) with true. cbv iota.
  change (if bytes_eqb (rs_name (v_sig [46] 48 [46])) (zn 1) && (rs_ty (v_sig [46] 48 [46]) =? T_DNSKEY) then _ else _) with [v_sig (zn 1) 48 (zn 1)].
  destruct (p_child n m N1) as [C1 C2]. destruct (t_verify_dnskeys toy_env false [v_sig (zn 1) 48 (zn 1)] (repeat p_ds n) (repeat (v_key (zn 1)) m)) as [evs' o]. cbn [fst snd] in *. subst o. cbn [fst]. rewrite filter_app, app_length, R1. cbn [filter hashb]. rewrite C1. reflexivity.
Qed.
Lemma product_held n m : Forall Held (product n m).
Proof.
  unfold product. apply Forall_app. split; [| apply Forall_app; split].
  - repeat (apply Forall_cons; [unfold Held; cbn [typed_rr v_key v_sig]; repeat match goal with |- _ /\ _ => split | |- is_bytes _ => bytes_in_range | |- _ => in_range end |]). apply Forall_nil.
  - apply Forall_forall. intros r H. apply repeat_spec in H as ->. unfold Held. cbn [typed_rr p_ds]. repeat match goal with |- _ /\ _ => split | |- is_bytes _ => bytes_in_range | |- _ => in_range end.
  - apply Forall_forall. intros r H. apply repeat_spec in H as ->. unfold Held. cbn [typed_rr v_key]. repeat match goal with |- _ /\ _ => split | |- is_bytes _ => bytes_in_range | |- _ => in_range end.
Qed.
Lemma product_reached : forall n m, (1 <= n)%nat -> Forall Held (product n m) /\ List.length (product n m) = (4 + n + m)%nat /\
  hashes (fst (t_verify_rr_stream toy_env false 2 (product n m))) = (1 + n * m)%nat.
Proof. intros n m N1. split; [apply product_held |]. split; [unfold product; rewrite !app_length, !repeat_length; reflexivity | apply product_work, N1]. Qed.
(** So the digests are not linear in the number of records. *)
Lemma linear_refuted : ~ (exists c, forall e fuel inp, SortsNeeds e -> Forall Held inp ->
  (hashes (fst (t_verify_rr_stream e false fuel inp)) <= c * (1 + fuel) * List.length inp)%nat).
Proof.
  intros [c H]. specialize (H toy_env 2%nat (product (100 * S c) (100 * S c)) toy_sorts (product_held _ _)). destruct (product_reached (100 * S c) (100 * S c) ltac:(lia)) as (_ & L & W). rewrite L, W in H. nia.
Qed.

(** A refusal in the middle: the second of three signatures is bad, the third is not asked about. *)
Definition picky_env : env := {| e_sha1 := fun _ => []; e_sha256 := fun _ => root_digest_20326; e_sig := fun _ _ m _ => negb (nth 1 m 0 =? 1); e_sort_needs := fun l => l |}.
Definition three : list RR := w_root ++ [w_a "x."; w_sig "x." 1 1 "."; w_ds "a."; w_sig "a." 43 1 "."].
Lemma three_trace : exists h a b, fst (t_verify_rr_stream picky_env false 10 three) = [E_Zone [46]; h; a; b] /\ is_hash h /\ is_check a /\ ~ refused a /\ refused b /\ verify_rr_stream picky_env false 10 three = Err Invalid.
Proof. eexists. eexists. eexists. split; [vm_compute; reflexivity |]. split; [exact I |]. split; [exact I |]. split; [intros [] |]. split; [exact I | vm_compute; reflexivity]. Qed.

(** ** As many checks as visits *)
Lemma rrsig_checked e dbg s keys rs evs : t_verify_rrsig e dbg s keys rs = (evs, Ok tt) -> checks evs = 1%nat.
Proof. intros E. destruct (one_rrsig e dbg s keys rs) as (C1 & _ & _ & _ & C5 & _). rewrite E in *. cbn [fst snd] in *. rewrite (check_len _ C1). apply C5. reflexivity. Qed.
Lemma dnskey_checked e dbg keys rs sigs : forall f evs s, t_verify_dnskey_sigs e dbg sigs keys rs f = (evs, Ok s) -> (1 <= checks evs)%nat.
Proof.
  induction sigs as [| s t IH]; intros f evs s' E; cbn [t_verify_dnskey_sigs] in E; [discriminate E |]. destruct (t_verify_rrsig e dbg s keys (map RR_DnsKey rs)) as [evs1 [[] | [] | |]] eqn:R; try (apply pair_equal_spec in E as [<- E]; discriminate E).
  - apply pair_equal_spec in E as [<- _]. rewrite (rrsig_checked _ _ _ _ _ _ R). lia.
  - destruct (t_verify_dnskey_sigs e dbg t keys rs true) as [evs2 o] eqn:R2. apply pair_equal_spec in E as [<- ->]. rewrite checks_app. specialize (IH _ _ _ R2). lia.
Qed.
Lemma zone_checked e dbg inp st evs st' : t_zone_step e dbg inp st = (evs, Ok st') -> (1 <= checks evs)%nat.
Proof.
  unfold t_zone_step. destruct (pop_zone st) as [st1 nd]. destruct (if bytes_eqb _ _ then _ else _) as [dses |]; [| intros H; apply pair_equal_spec in H as [_ H]; discriminate H].
  destruct (t_verify_dnskeys e dbg (dnskey_rrsigs inp (v_zone st1)) dses (zone_dnskeys inp (v_zone st1))) as [evs1 [s | x | |]] eqn:D; try (intros H; apply pair_equal_spec in H as [_ H]; discriminate H).
  destruct (t_sigs_loop _ _ _ _ _ _) as [evs2 o]. intros H. apply pair_equal_spec in H as [<- _]. change (E_Zone (v_zone st1) :: evs1 ++ evs2) with ([E_Zone (v_zone st1)] ++ evs1 ++ evs2). rewrite !checks_app.
  enough (1 <= checks evs1)%nat by lia. unfold t_verify_dnskeys in D. destruct (is_nil dses); [apply pair_equal_spec in D as [_ D]; discriminate D |]. destruct (negb _); [apply pair_equal_spec in D as [_ D]; discriminate D |].
  destruct (t_validated e dses _) as [hs v]. destruct (t_verify_dnskey_sigs _ _ _ _ _ _) as [cs o'] eqn:K. apply pair_equal_spec in D as [<- ->]. rewrite checks_app. apply dnskey_checked in K. lia.
Qed.
(** A run that ends well would not with less fuel than it has checks. *)
Lemma zones_checked e dbg inp fuel : forall st evs st', t_zone_loop e dbg inp fuel st = (evs, Ok st') -> zone_loop e dbg inp (checks evs) st = Ok st'.
Proof.
  induction fuel as [| f IH]; intros st evs st' E; cbn [t_zone_loop] in E; destruct (bytes_eqb (v_zone st) root_name || negb (is_nil (v_pending st))) eqn:G.
  - apply pair_equal_spec in E as [_ E]. discriminate E.
  - apply pair_equal_spec in E as [<- E]. injection E as <-. cbn. rewrite G. reflexivity.
  - destruct (t_zone_step e dbg inp st) as [evs1 [st1 | x | |]] eqn:Z; try (apply pair_equal_spec in E as [_ E]; discriminate E). destruct (t_zone_loop e dbg inp f st1) as [evs2 o] eqn:L. apply pair_equal_spec in E as [<- ->].
    pose proof (zone_checked _ _ _ _ _ _ Z) as C. apply IH in L. rewrite checks_app. replace (checks evs1 + checks evs2)%nat with (S (checks evs1 - 1 + checks evs2)) by lia. cbn [zone_loop]. rewrite G. pose proof (same_zone e dbg inp st) as SZ. rewrite Z in SZ. cbn [snd] in SZ. rewrite <- SZ. cbn [obind].
    rewrite (zone_loop_mono e dbg inp (checks evs2) st1); [exact L | rewrite L; discriminate | lia].
  - apply pair_equal_spec in E as [<- E]. injection E as <-. cbn. rewrite G. reflexivity.
Qed.
(** [n] nested zones: [2 ^ n] checks or more. *)
Lemma nest_checks : forall n fuel, (1 <= n <= 127)%nat -> (2 ^ n <= fuel)%nat -> (2 ^ n <= checks (fst (t_verify_rr_stream toy_env false fuel (nest n))))%nat.
Proof.
  intros n fuel N1 F. destruct (visits_exponential n N1) as (_ & _ & L & v & V & _). assert (Z : exists st, zone_loop toy_env false (nest n) fuel vinit = Ok st).
  { unfold verify_rr_stream in V. destruct (zone_loop toy_env false (nest n) (2 ^ n) vinit) as [st | | |] eqn:E; try discriminate V. exists st. rewrite (zone_loop_mono _ _ _ (2 ^ n)); [exact E | rewrite E; discriminate | exact F]. }
  destruct Z as [st Z]. unfold t_verify_rr_stream. pose proof (same_zones toy_env false (nest n) fuel vinit) as S. rewrite Z in S. destruct (t_zone_loop toy_env false (nest n) fuel vinit) as [evs o] eqn:T. cbn [snd] in S. subst o. destruct (t_finish_verify toy_env st) as [evs' o']. cbn [fst]. rewrite checks_app.
  pose proof (zones_checked _ _ _ _ _ _ _ T) as C. destruct (Nat.le_gt_cases (2 ^ n) (checks evs)) as [H | H]; [lia |]. exfalso.
  unfold verify_rr_stream in L. rewrite (zone_loop_mono _ _ _ (checks evs)) in L; [| rewrite C; discriminate | lia]. rewrite C in L. cbn [obind] in L. unfold finish_verify in L.
  assert (X : forall n nm, proof_loop toy_env (v_res st) n nm = Loop -> (n < List.length nm)%nat).
  { clear. induction n as [| n IH]; intros [| nd t]; cbn [proof_loop List.length]; try discriminate; [lia |]. destruct nd as [[a b] c]. unfold discharge. destruct (find _ _) as [x |]; [| destruct (nsec3_find _ _ _) as [[x m] |]; [| discriminate]]; intros H; apply IH in H; unfold retain_needs in H; pose proof (filter_length_le (A := list N * list N * N)) as FL; match type of H with (_ < List.length (filter ?f ?l))%nat => specialize (FL f l) end; lia. }
  destruct (is_nil (v_res st)); [discriminate L |]. destruct (_ <=? _); [discriminate L |]. cbv zeta in L. destruct (proof_loop _ _ _ _) eqn:P; try discriminate L. apply X in P. rewrite rev_length in P. lia.
Qed.
