(** Refutations for validation: the witnesses of [ValW] against the full statements (C20, C23-C26, C28,
    C31, C32). *)
From Verif Require Import Base BaseP NameM WireM RRM SerM ValM NameSpec NameP WireSpec RecSpec RecP RecP2 CodecSpec ValSpec SignedSpec
  SignedP ValP ValP2 ValP3 ValP4 ValP5 HeldP OrdRR ValW.
From Coq Require Import String Permutation Sorted Arith.
Local Open Scope N_scope.

(** ** C20 *)
Lemma only_nsec_ok : exists v, run w_only_nsec = Ok v /\ vr_rrs v = [].
Proof. eexists. split; vm_compute; reflexivity. Qed.
Lemma nonempty_refuted : ~ (forall e fuel inp v, Forall Held inp -> verify_rr_stream e false fuel inp = Ok v -> vr_rrs v <> []).
Proof. intros H. destruct only_nsec_ok as (v & H1 & H2). apply (H toy_env 10%nat w_only_nsec v only_nsec_held H1 H2). Qed.

(** ** C23 *)
Lemma in_w_sig nm ty l sg s rest : In (RR_RRSig s) (w_sig nm ty l sg :: rest) -> s = w_rrsig nm ty l sg \/ In (RR_RRSig s) rest.
Proof. intros [H|H]; [left; unfold w_sig in H; congruence|auto]. Qed.
Ltac pick H := cbn [app w_root w_zone w_key w_ds w_a w_nsec] in H;
  repeat (first [apply in_w_sig in H; destruct H as [H|H]
                |destruct H as [H|H]; [discriminate H|]]; try contradiction).

Lemma sibling_ok : exists v, run w_sibling = Ok v /\ vr_rrs v = [w_a "ba."].
Proof. eexists. split; vm_compute; reflexivity. Qed.
Lemma subdomain_refuted : ~ (forall e fuel inp v r, Forall Held inp -> verify_rr_stream e false fuel inp = Ok v -> In r (vr_rrs v) ->
  exists z s, TrustedZone e inp (fun _ => True) z /\ SignedByZone e inp (fun _ => True) z s /\
    In r (rrset inp (rs_name s) (rs_ty s)) /\ Subdomain (rr_name r) z).
Proof.
  intros H. destruct sibling_ok as (v & H1 & H2).
  destruct (H toy_env 10%nat w_sibling v (w_a "ba.") sibling_held H1) as (z & s & _ & (S1 & _ & S2 & _) & S3 & pre & ls & L1 & L2).
  { rewrite H2. left. reflexivity. }
  apply in_rrset in S3 as (_ & S3 & S4). unfold w_sibling in S1. pick S1; subst s; try (vm_compute in S4; discriminate).
  vm_compute in S2. subst z.
  assert (E2 : LabelsOf [97; 46] [[97]]) by (split; [reflexivity|]; split; [repeat constructor; cbn; intuition discriminate|discriminate]).
  assert (E1 : LabelsOf (rr_name (w_a "ba.")) [[98; 97]]) by (split; [reflexivity|]; split; [repeat constructor; cbn; intuition discriminate|discriminate]).
  pose proof (labelsof_inj _ _ _ L2 E2) as E3. subst ls. pose proof (labelsof_inj _ _ _ L1 E1) as E4.
  destruct pre as [|p [|q pre]]; discriminate E4.
Qed.

(** ** C24 *)
Lemma labels_xa : LabelsOf (bs "x.a.") [[120]; [97]].
Proof. split; [reflexivity|]; split; [repeat constructor; cbn; intuition discriminate|discriminate]. Qed.
Lemma labels_ba : LabelsOf (bs "b.a.") [[98]; [97]].
Proof. split; [reflexivity|]; split; [repeat constructor; cbn; intuition discriminate|discriminate]. Qed.
Lemma next_closer_inj s r nc nc' : NextCloser s r nc -> NextCloser s r nc' -> nc = nc'.
Proof.
  intros (p & l & u & A & B & ->) (p' & l' & u' & A' & B' & ->).
  pose proof (labelsof_inj _ _ _ A A') as E. assert (L : List.length u = List.length u') by lia.
  assert (G : forall (a a' c c' : list (list N)), a ++ c = a' ++ c' -> List.length c = List.length c' -> c = c').
  { induction a as [|x a IH]; intros a' c c' H HL.
    - destruct a' as [|y a']; [exact H|]. cbn in H. subst c. cbn in HL. rewrite app_length in HL. lia.
    - destruct a' as [|y a']; cbn [app] in H.
      + subst c'. cbn [List.length] in HL. rewrite app_length in HL. lia.
      + inversion H. eauto. }
  apply G in E; [congruence|]. cbn [List.length]. lia.
Qed.
Lemma lex_irrefl {A} (lt : A -> A -> Prop) a : (forall x, ~ lt x x) -> ~ lex lt a a.
Proof. intros H. induction a as [|x a IH]; intros L; inversion L; subst; [eapply H; eauto|auto]. Qed.
Lemma name_lt_irrefl a : ~ name_lt a a.
Proof.
  intros (la & lb & A & B & C). rewrite (labelsof_inj _ _ _ A B) in C. unfold canonical_lt in C.
  revert C. apply lex_irrefl. intros x. apply lex_irrefl. intros y. lia.
Qed.

Lemma wild_exists_ok : exists v, run w_wild_exists = Ok v /\ vr_rrs v = [w_a "x.a."].
Proof. eexists. split; vm_compute; reflexivity. Qed.

Lemma root_reached e inp : Reached e inp [46].
Proof. constructor. Qed.

(** Toy signatures: any RRSIG over records of its type whose owner fits is valid. *)
Lemma toy_signed inp z s k : Forall Held inp -> In (RR_RRSig s) inp -> rs_key_name s = z -> In (RR_DnsKey k) (rrset inp z 48) ->
  verify_rrsig toy_env false s [k] (rrset inp (rs_name s) (rs_ty s)) = Ok tt -> SignedByZone toy_env inp (fun _ => True) z s.
Proof.
  intros Hh Hs Hz Hk Hv. split; auto. split; auto. split; auto.
  apply verify_rrsig_sigby in Hv as (k' & [<-|[]] & K).
  - exists k. auto.
  - eapply held_rrsig; eauto.
  - apply held_rrset; auto.
  - constructor; [|constructor]. apply in_rrset in Hk as (Hk & _). rewrite Forall_forall in Hh. apply Hh in Hk. apply Hk.
Qed.
Definition key_of (z : string) : dnskey :=
  {| dk_name := bs z; dk_flags := 257; dk_protocol := 3; dk_alg := 8; dk_pubkey := [1; 3; 74; 90] |}.
Ltac in_inp := cbn; repeat (try (left; reflexivity); right).
Ltac toy_sig z := eapply (toy_signed _ _ _ (key_of z)); [|in_inp|reflexivity|apply in_rrset; split; [in_inp|split; reflexivity]|vm_compute; reflexivity].
Lemma a_reached inp : Forall Held inp -> In (RR_RRSig (w_rrsig "a." 43 1 ".")) inp -> In (w_key ".") inp ->
  verify_rrsig toy_env false (w_rrsig "a." 43 1 ".") [key_of "."] (rrset inp (bs "a.") 43) = Ok tt -> Reached toy_env inp (bs "a.").
Proof.
  intros Hh Hs Hk Hv. change (bs "a.") with (rs_name (w_rrsig "a." 43 1 ".")). eapply Re_child; [constructor| |reflexivity].
  eapply (toy_signed _ _ _ (key_of ".")); auto. apply in_rrset. auto.
Qed.

(** The record is covered by an RRSIG of a reached zone, so the answer is from the wildcard *.a. *)
Definition DenialStatement (Denied : env -> list RR -> list N -> list N -> N -> Prop) : Prop :=
  forall e fuel inp v r z s, Forall Held inp -> SortsNeeds e -> verify_rr_stream e false fuel inp = Ok v -> In r (vr_rrs v) ->
  Reached e inp z -> SignedByZone e inp (fun _ => True) z s -> In r (rrset inp (rs_name s) (rs_ty s)) ->
  (exists ls, LabelsOf (rr_name r) ls /\ N.of_nat (List.length ls) = rs_labels s) \/
  (exists nc, NextCloser s r nc /\ Denied e inp z nc (rr_ty r)).

Lemma xa_wild inp Denied : Forall Held inp -> DenialStatement Denied -> (exists v, run inp = Ok v /\ In (w_a "x.a.") (vr_rrs v)) ->
  In (w_sig "x.a." 1 1 "a.") inp -> In (w_a "x.a.") inp ->
  Reached toy_env inp (bs "a.") -> SignedByZone toy_env inp (fun _ => True) (bs "a.") (w_rrsig "x.a." 1 1 "a.") ->
  Denied toy_env inp (bs "a.") (bs "x.a.") 1.
Proof.
  intros Hh H (v & H1 & H2) Hs Ha Hr Hz.
  destruct (H toy_env 10%nat inp v (w_a "x.a.") (bs "a.") (w_rrsig "x.a." 1 1 "a.") Hh toy_sorts H1 H2 Hr Hz) as [(ls & L1 & L2)|(nc & L1 & L2)].
  - apply in_rrset. auto.
  - rewrite (labelsof_inj _ _ _ L1 labels_xa) in L2. discriminate.
  - assert (NC : NextCloser (w_rrsig "x.a." 1 1 "a.") (w_a "x.a.") (bs "x.a.")) by (exists [], [120], [[97]]; split; [apply labels_xa|split; reflexivity]).
    rewrite (next_closer_inj _ _ _ _ L1 NC) in L2. exact L2.
Qed.

Lemma strict_denial_refuted : ~ DenialStatement (fun e inp z nc ty => exists z', StrictlyDenied e inp z' nc).
Proof.
  intros H.
  assert (D : exists z', StrictlyDenied toy_env w_wild_exists z' (bs "x.a.")).
  { eapply (xa_wild w_wild_exists _ wild_exists_held H).
    - destruct wild_exists_ok as (v & H1 & H2). exists v. split; auto. rewrite H2. left. auto.
    - in_inp.
    - in_inp.
    - apply a_reached; [apply wild_exists_held|in_inp|in_inp|vm_compute; reflexivity].
    - toy_sig "a."%string. apply wild_exists_held. }
  destruct D as (z' & s & _ & _ & [(n & N1 & N2 & _)|(n & N1 & _)]); apply in_rrset in N1 as (N1 & _); unfold w_wild_exists in N1; pick N1.
  destruct N1 as [N1|[N1|[]]]; [|discriminate]. assert (En : ns_name n = bs "x.a.") by (apply (f_equal rr_name) in N1; symmetry; exact N1).
  rewrite En in N2. revert N2. apply name_lt_irrefl.
Qed.

Lemma other_zone_ok : exists v, run w_other_zone = Ok v /\ vr_rrs v = [w_a "x.a."].
Proof. eexists. split; vm_compute; reflexivity. Qed.
Lemma same_zone_refuted : ~ DenialStatement WeaklyDeniedBy.
Proof.
  intros H.
  assert (D : WeaklyDeniedBy toy_env w_other_zone (bs "a.") (bs "x.a.") 1).
  { eapply (xa_wild w_other_zone _ other_zone_held H).
    - destruct other_zone_ok as (v & H1 & H2). exists v. split; auto. rewrite H2. left. auto.
    - in_inp.
    - in_inp.
    - apply a_reached; [apply other_zone_held|in_inp|in_inp|vm_compute; reflexivity].
    - toy_sig "a."%string. apply other_zone_held. }
  destruct D as (s & (S1 & _ & S2 & _) & D).
  assert (T : rs_ty s = 47 \/ rs_ty s = 50).
  { destruct D as [(n & N1 & _)|(n & N1 & _)]; apply in_rrset in N1 as (_ & _ & N1); cbn in N1; auto. }
  unfold w_other_zone in S1. pick S1; subst s; vm_compute in S2, T; try discriminate S2; destruct T; discriminate.
Qed.

Lemma wild_ds_ok : exists v, run w_wild_ds = Ok v /\ vr_rrs v = [w_a "b.a."].
Proof. eexists. split; vm_compute; reflexivity. Qed.
(** The same for the DS RRsets through which the answers are trusted. *)
Lemma wild_ds_refuted : ~ (forall e fuel inp v r z s, Forall Held inp -> SortsNeeds e -> verify_rr_stream e false fuel inp = Ok v ->
  Reached e inp z -> SignedByZone e inp (fun _ => True) z s -> rs_ty s = 43 -> In r (rrset inp (rs_name s) (rs_ty s)) ->
  (exists ls, LabelsOf (rr_name r) ls /\ N.of_nat (List.length ls) = rs_labels s) \/
  (exists nc, NextCloser s r nc /\ WeaklyDenied e inp nc (rr_ty r))).
Proof.
  intros H. destruct wild_ds_ok as (v & H1 & _).
  destruct (H toy_env 10%nat w_wild_ds v (w_ds "b.a.") (bs "a.") (w_rrsig "b.a." 43 1 "a.") wild_ds_held toy_sorts H1) as [(ls & L1 & L2)|(nc & _ & D)].
  - apply a_reached; [apply wild_ds_held|in_inp|in_inp|vm_compute; reflexivity].
  - toy_sig "a."%string. apply wild_ds_held.
  - reflexivity.
  - apply in_rrset. split; [in_inp|split; reflexivity].
  - rewrite (labelsof_inj _ _ _ L1 labels_ba) in L2. discriminate.
  - destruct D as [(n & (z & s & _ & _ & D) & _)|(n & (z & s & _ & _ & D) & _)]; apply in_rrset in D as (D & _); unfold w_wild_ds in D; pick D.
Qed.

(** ** C25 *)
Lemma fixed_point_loops e dbg inp st : zone_step e dbg inp st = Ok st -> v_zone st = [46] \/ v_pending st <> [] ->
  forall fuel, zone_loop e dbg inp fuel st = Loop.
Proof.
  intros H Hz. assert (C : bytes_eqb (v_zone st) root_name || negb (is_nil (v_pending st)) = true).
  { apply orb_true_iff. destruct Hz as [->|Hz]; [left; reflexivity|right]. destruct (v_pending st); [congruence|reflexivity]. }
  induction fuel as [|fuel IH]; cbn [zone_loop]; rewrite C; [reflexivity|]. rewrite H. exact IH.
Qed.
Lemma root_only_loops fuel : verify_rr_stream toy_env false fuel w_root = Loop.
Proof.
  unfold verify_rr_stream. destruct fuel as [|fuel]; [reflexivity|]. cbn [zone_loop].
  change (bytes_eqb (v_zone vinit) root_name || negb (is_nil (v_pending vinit))) with true. cbv iota.
  destruct (zone_step toy_env false w_root vinit) as [st| | |] eqn:E; try (vm_compute in E; discriminate).
  cbn [obind]. rewrite (fixed_point_loops toy_env false w_root st); [reflexivity| |].
  - vm_compute in E. injection E as <-. vm_compute. reflexivity.
  - vm_compute in E. injection E as <-. left. reflexivity.
Qed.
Lemma self_ds_loops fuel : verify_rr_stream toy_env false fuel w_self_ds = Loop.
Proof.
  unfold verify_rr_stream. destruct fuel as [|fuel]; [reflexivity|]. cbn [zone_loop].
  change (bytes_eqb (v_zone vinit) root_name || negb (is_nil (v_pending vinit))) with true. cbv iota.
  destruct (zone_step toy_env false w_self_ds vinit) as [st| | |] eqn:E; try (vm_compute in E; discriminate).
  cbn [obind]. destruct fuel as [|fuel]; cbn [zone_loop].
  { vm_compute in E. injection E as <-. reflexivity. }
  replace (bytes_eqb (v_zone st) root_name || negb (is_nil (v_pending st))) with true by (vm_compute in E; injection E as <-; reflexivity).
  destruct (zone_step toy_env false w_self_ds st) as [st1| | |] eqn:E1; [|vm_compute in E; injection E as <-; vm_compute in E1; discriminate..].
  cbn [obind]. rewrite (fixed_point_loops toy_env false w_self_ds st1); [reflexivity| |].
  - vm_compute in E. injection E as <-. vm_compute in E1. injection E1 as <-. vm_compute. reflexivity.
  - vm_compute in E. injection E as <-. vm_compute in E1. injection E1 as <-. right. discriminate.
Qed.
Lemma termination_refuted : ~ (forall e inp, Forall Held inp -> exists fuel, verify_rr_stream e false fuel inp <> Loop).
Proof. intros H. destruct (H toy_env w_root root_held) as (fuel & F). apply F, root_only_loops. Qed.
(** Neither of the two conditions suffices alone. *)
Lemma termination_self_refuted : ~ (forall e inp s0, Forall Held inp -> In (RR_RRSig s0) inp -> rs_ty s0 = 43 -> rs_key_name s0 = [46] ->
  supported_alg (rs_alg s0) -> exists fuel, verify_rr_stream e false fuel inp <> Loop).
Proof.
  intros H. destruct (H toy_env w_self_ds (w_rrsig "a." 43 1 ".") self_ds_held) as (fuel & F);
    [in_inp|reflexivity|reflexivity|left; reflexivity|]. apply F, self_ds_loops.
Qed.

(** ** C26 *)
Definition labels255_wire : list N := flat_map (fun r => write_rr r 3600) w_labels255.
Lemma labels255_parsed : is_bytes labels255_wire /\ parse_rr_stream true labels255_wire = Ok w_labels255.
Proof. split; [bytes_in_range|vm_compute; reflexivity]. Qed.
Lemma debug_panic_refuted : ~ (forall e dbg fuel w inp, is_bytes w -> parse_rr_stream dbg w = Ok inp ->
  verify_rr_stream e dbg fuel inp <> Panic).
Proof.
  intros H. destruct labels255_parsed as [A B]. apply (H toy_env true 10%nat _ _ A B). vm_compute. reflexivity.
Qed.

(** ** C28: SHA-384 (digest type 4) is counted as known but is not implemented. *)
Lemma sha384_refuted : ~ (forall e sigs dss keys, dss <> [] ->
  Forall (fun d => ds_digest_type d <> 1 /\ ds_digest_type d <> 2) dss ->
  verify_dnskeys e false sigs dss keys = Err UnsupportedAlgorithm).
Proof.
  intros H.
  specialize (H toy_env [w_rrsig "a." 48 1 "a."]
    [{| ds_name := bs "a."; ds_key_tag := 20326; ds_alg := 8; ds_digest_type := 4; ds_digest := root_digest_20326 |}] [key_of "a."]).
  assert (E : Err Invalid = @Err verr rrsig UnsupportedAlgorithm); [|discriminate].
  rewrite <- H; [vm_compute; reflexivity|discriminate|]. constructor; [cbn; split; discriminate|constructor].
Qed.

(** ** C31 *)
Lemma order_refuted : ~ (forall e inp inp', Forall Held inp -> Permutation inp inp' ->
  verify_rr_stream e false 10 inp = Err Invalid -> verify_rr_stream e false 10 inp' = Err Invalid).
Proof.
  intros H. assert (P : Permutation w_bad_good w_good_bad).
  { unfold w_bad_good, w_good_bad. cbn [app]. constructor. constructor. }
  assert (Hh : Forall Held w_bad_good) by (rewrite P; apply good_bad_held).
  specialize (H toy_env _ _ Hh P). vm_compute in H. discriminate (H eq_refl).
Qed.

(** ** C32 *)
Definition w_ns (srv : string) : RR := RR_NS {| nr_name := bs "a."; nr_server := bs srv |}.
Lemma ns_wf srv : In srv ["aa."; "b."]%string -> wf_rr (w_ns srv).
Proof.
  intros H. split; [|split; destruct H as [<-|[<-|[]]]; exact I]. split; [apply (proper_w [[97]]); reflexivity|].
  destruct H as [<-|[<-|[]]]; [apply (proper_w [[97; 97]])|apply (proper_w [[98]])]; reflexivity.
Qed.
Lemma ns_order_refuted : ~ (forall rs n ty, Forall wf_rr rs -> Forall (fun r => rr_name r = n /\ rr_ty r = ty) rs ->
  CanonicalOrder (sort_by rr_cmp rs)).
Proof.
  intros H. assert (W1 := ns_wf "aa." (or_introl eq_refl)). assert (W2 := ns_wf "b." (or_intror (or_introl eq_refl))).
  specialize (H [w_ns "aa."; w_ns "b."] (bs "a.") 2). change (sort_by rr_cmp [w_ns "aa."; w_ns "b."]) with [w_ns "aa."; w_ns "b."] in H.
  assert (C : CanonicalOrder [w_ns "aa."; w_ns "b."]) by (apply H; [constructor; [auto|constructor; [auto|constructor]]|repeat constructor]).
  inversion C as [|? ? _ F]; subst. inversion F as [|? ? L _]; subst. apply rdata_le in L; auto.
  destruct L as [L|L]; [vm_compute in L; discriminate|]. vm_compute in L. inversion L; subst; discriminate.
Qed.
