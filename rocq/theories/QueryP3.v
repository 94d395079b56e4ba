(** Proof builder: budget, completeness, framing and the TCP driver. *)
From Verif Require Import Base BaseP NameM NameSpec NameP WireM WireSpec WireP RRM SerM RecSpec RecP RecP2 HeldP ValSpec ValM ValP QueryM QBufP QuerySpec QueryP QueryP2.
From Coq Require Import Lia Arith Permutation.
Local Open Scope N_scope.

Lemma needed_cost ks : N.of_nat (needed ks) = 1 + cost ks.
Proof. unfold needed, cost. lia. Qed.

Lemma forall2_impl {A B} (P Q : A -> B -> Prop) l m : (forall a b, P a b -> Q a b) -> Forall2 P l m -> Forall2 Q l m.
Proof. intros I H. induction H; constructor; auto. Qed.

(** ** C40 *)
Lemma handed_bound dbg n ty b0 q0 tr b : builder_new n ty = Ok (b0, q0) -> Calls dbg b0 tr b -> Forall (fun c => is_bytes (fst c)) tr ->
  (length (q0 :: handed tr) <= 10)%nat.
Proof.
  intros E C B. unfold builder_new in E. apply obind_ok in E as (q & _ & E). injection E as <- <-.
  pose proof (inv_handed _ _ _ (calls_inv _ _ _ C B)). cbn [length]. lia.
Qed.
Lemma driven_calls dbg b tr b' : Driven dbg b tr b' -> Calls dbg b tr b'.
Proof. induction 1; econstructor; eauto. Qed.
Lemma awaiting_spec b : awaiting_responses b = true <-> pb_pending b <> 0 /\ pb_made b <= 10.
Proof. unfold awaiting_responses, MAX_REQUESTS. rewrite andb_true_iff, N.ltb_lt, N.leb_le. split; intros [H1 H2]; split; lia. Qed.
Lemma driven_bound dbg n ty b0 q0 tr b : builder_new n ty = Ok (b0, q0) -> Driven dbg b0 tr b -> Forall (fun c => is_bytes (fst c)) tr ->
  (length (accepted tr) <= 10)%nat.
Proof.
  intros E D. unfold builder_new in E. apply obind_ok in E as (q & _ & E). injection E as <- <-.
  remember builder_init as b0 eqn:E0. induction D as [b|b tr b1 m r b2 D IH A P NP NL]; intros B.
  - cbn. lia.
  - apply Forall_app in B. destruct B as [B _]. subst b. pose proof (inv_pending _ _ _ (calls_inv _ _ _ (driven_calls _ _ _ _ D) B)) as I.
    apply awaiting_spec in A. rewrite accepted_snoc, app_length. destruct (is_ok r); cbn [length]; unfold len in I; lia.
Qed.

(** ** C41, C42 *)
Lemma builder_status dbg n ty b0 q0 tr b : builder_new n ty = Ok (b0, q0) -> Calls dbg b0 tr b -> Forall (fun c => is_bytes (fst c)) tr ->
  exists keys, NoDup keys /\ (forall k, In k keys <-> Signer (negb dbg) tr k) /\
    (awaiting_responses b = true <-> (length (accepted tr) < needed keys)%nat /\ (needed keys <= 10)%nat) /\
    ((exists res, finish_proof b = Ok res) <-> (length (accepted tr) = needed keys)%nat /\ (needed keys <= 10)%nat) /\
    (length (accepted tr) <= needed keys)%nat /\
    ((needed keys <= 10)%nat -> Forall2 (fun kt q => Query (fst kt) (snd kt) (qb_deref q)) (flat_map (fun k => map (pair k) (key_types k)) keys) (handed tr)).
Proof.
  intros E C B. unfold builder_new in E. apply obind_ok in E as (q & _ & E). injection E as <- <-.
  destruct (calls_inv _ _ _ C B) as [ND SG MD PD HD QS _]. exists (pb_requested b). split; [exact ND|]. split; [exact SG|].
  pose proof (needed_cost (pb_requested b)) as NC. unfold len in PD.
  split; [rewrite awaiting_spec; split; intros [H1 H2]; split; lia|]. split; [|split; [lia|]].
  - unfold finish_proof, MAX_REQUESTS. destruct (N.ltb_spec 0 (pb_pending b)) as [P|P]; cbn [orb].
    + split; [intros [res H]; discriminate|lia].
    + destruct (N.ltb_spec 10 (pb_made b)) as [M|M]; [split; [intros [res H]; discriminate|lia]|].
      split; [lia|]. eauto.
  - intros L. assert (M : pb_made b <= 10) by lia. specialize (QS M). eapply forall2_impl; [|exact QS]. intros a x [_ H]. exact H.
Qed.
Lemma initial_query n ty b0 q0 : name_try_from n = Some n -> ty < 65536 -> builder_new n ty = Ok (b0, q0) -> Query n ty (qb_deref q0).
Proof.
  intros V T E. unfold builder_new in E. apply obind_ok in E as (q & Eq & E). injection E as <- <-.
  destruct (build_query_spec n ty V T) as (q' & E & Q & _). congruence.
Qed.

(** ** C43, C44 *)
Lemma finished_items dbg n ty b0 q0 tr b proof ttl : builder_new n ty = Ok (b0, q0) -> Calls dbg b0 tr b -> Forall (fun c => is_bytes (fst c)) tr ->
  finish_proof b = Ok (proof, ttl) -> Forall (fun c => is_ok (snd c) = true) tr ->
  exists itemss, Forall2 (Response (negb dbg)) (map fst tr) itemss /\ proof = write_all (concat itemss) /\ is_min ttl (map snd (concat itemss)) /\
    Forall (fun rt => Held (fst rt) /\ is_u32 (snd rt)) (concat itemss).
Proof.
  intros E C B F A. unfold builder_new in E. apply obind_ok in E as (q & _ & E). injection E as <- <-.
  destruct (calls_inv _ _ _ C B) as [ND SG MD PD HD QS (its & R & Fh & NO & TT & PR)].
  assert (Acc : accepted tr = map fst tr).
  { unfold accepted. f_equal. clear -A. induction A as [|c t H A IH]; [reflexivity|]. cbn [filter]. rewrite H, IH. reflexivity. }
  unfold finish_proof in F. destruct (N.ltb_spec 0 (pb_pending b)) as [P|P]; cbn [orb] in F; [discriminate F|].
  destruct (N.ltb_spec MAX_REQUESTS (pb_made b)) as [M|M]; [discriminate F|]. injection F as <- <-.
  exists its. rewrite Acc in *. split; [exact R|]. split; [exact (PR A)|]. split; [|exact Fh].
  rewrite TT. apply min_ttl_is_min.
  - rewrite MD in PD. intros X. assert (L : len (map fst tr) <> 0) by (unfold cost in *; lia).
    destruct R as [|m i ms is R1 R]; [apply L; reflexivity|]. cbn [concat] in X. apply app_eq_nil in X. destruct X as [-> _].
    destruct R1 as (f & ans & auth & _ & _ & _ & _ & _ & _ & NE & X). symmetry in X. apply app_eq_nil in X. tauto.
  - eapply Forall_impl; [|exact Fh]. intros a [_ H]. unfold is_u32 in H. lia.
Qed.
Lemma finished_parses dbg n ty b0 q0 tr b proof ttl dbg' : builder_new n ty = Ok (b0, q0) -> Calls dbg b0 tr b -> Forall (fun c => is_bytes (fst c)) tr ->
  finish_proof b = Ok (proof, ttl) -> Forall (fun c => is_ok (snd c) = true) tr ->
  exists itemss, Forall2 (Response (negb dbg)) (map fst tr) itemss /\
    (Forall wf_rr (map fst (concat itemss)) -> parse_rr_stream dbg' proof = Ok (map fst (concat itemss))).
Proof.
  intros E C B F A. destruct (finished_items _ _ _ _ _ _ _ _ _ E C B F A) as (its & R & -> & _ & Fh). exists its. split; [exact R|].
  intros W. apply write_parse_stream. apply Forall_forall. intros [r t] I. rewrite Forall_forall in W, Fh. split.
  - apply W. apply in_map_iff. exists (r, t). auto.
  - apply Fh in I. apply I.
Qed.

Lemma responses_unique lax ms i : Forall2 (Response lax) ms i -> forall j, Forall2 (Response lax) ms j -> i = j.
Proof.
  induction 1 as [|m x ms i R _ IH]; intros j H; inversion H; subst; [reflexivity|]. f_equal; [eapply response_unique; eassumption|auto].
Qed.
Lemma parses_back : ParsesBack wf_rr.
Proof.
  intros dbg n ty b0 q0 tr b proof ttl its E C B F A R W dbg'.
  assert (B' : Forall (fun c : list N * outcome unit (list qbuf) => is_bytes (fst c)) tr) by (eapply Forall_impl; [|exact B]; intros c [H _]; exact H).
  destruct (finished_parses _ _ _ _ _ _ _ _ _ dbg' E C B' F A) as (its' & R' & P). rewrite (responses_unique _ _ _ R _ R') in *. auto.
Qed.

(** ** C45 *)
(** Builders which differ at most in their proof bytes. *)
Definition same_but_proof (a b : builder) : Prop :=
  pb_min_ttl a = pb_min_ttl b /\ pb_requested a = pb_requested b /\ pb_pending a = pb_pending b /\ pb_made a = pb_made b.
Lemma section_state dbg resp keep n : forall read t0 p p' ns r hs, read_section dbg resp keep n read t0 (p, ns) = (r, hs) ->
  exists x, fst hs = p ++ x /\ read_section dbg resp keep n read t0 (p', ns) = (r, (p' ++ x, snd hs)).
Proof.
  induction n as [|n IH]; intros read t0 p p' ns r hs H; cbn [read_section] in *.
  - injection H as <- <-. exists []. rewrite !app_nil_r. auto.
  - destruct (parse_wire_packet_rr dbg read resp) as [[[rr t] read']| | |];
      try (injection H as <- <-; exists []; rewrite !app_nil_r; auto; fail).
    destruct (keep rr); [|eapply IH; exact H]. unfold emit in *. destruct (dbg && write_data_overflows rr).
    + injection H as <- <-. exists []. rewrite !app_nil_r. auto.
    + cbn [fst snd] in *. apply (IH _ _ _ (p' ++ write_rr rr t)) in H. destruct H as (x & E & H).
      exists (write_rr rr t ++ x). rewrite !app_assoc. auto.
Qed.
Lemma handle_state dbg resp p p' ns r hs : handle_response dbg resp (p, ns) = (r, hs) ->
  exists x, fst hs = p ++ x /\ handle_response dbg resp (p', ns) = (r, (p' ++ x, snd hs)).
Proof.
  intros H. unfold handle_response in *.
  destruct (read_header resp) as [[[an au] read]| | |]; try (injection H as <- <-; exists []; rewrite !app_nil_r; auto; fail).
  destruct (read_section dbg resp (fun _ => true) (N.to_nat an) read (2 ^ 32 - 1) (p, ns)) as [r1 [p1 ns1]] eqn:S1.
  apply (section_state _ _ _ _ _ _ _ p') in S1. destruct S1 as (x1 & E1 & S1). cbn [fst snd] in *. rewrite S1.
  destruct r1 as [[t1 rest]| | |]; try (injection H as <- <-; eauto; fail).
  destruct (read_section dbg resp authority_kept (N.to_nat au) rest t1 (p1, ns1)) as [r2 [p2 ns2]] eqn:S2.
  apply (section_state _ _ _ _ _ _ _ (p' ++ x1)) in S2. destruct S2 as (x2 & E2 & S2). cbn [fst snd] in *. rewrite S2.
  exists (x1 ++ x2). rewrite app_assoc, E1 in *.
  destruct r2 as [[t2 rest2]| | |]; injection H as <- <-; cbn [fst snd]; rewrite <- ?app_assoc in *; auto.
Qed.
Definition same_result (pa pb : list N) (ra rb : outcome unit (list qbuf * builder)) : Prop :=
  match ra, rb with
  | Ok (x, a'), Ok (y, b') => x = y /\ same_but_proof a' b' /\ pb_proof a' = pa /\ pb_proof b' = pb
  | Err x, Err y => x = y
  | Panic, Panic => True
  | Loop, Loop => True
  | _, _ => False
  end.
Lemma request_state names : forall a b qs, same_but_proof a b ->
  same_result (pb_proof a) (pb_proof b) (request_keys names a qs) (request_keys names b qs).
Proof.
  induction names as [|k t IH]; intros a b qs S; cbn [request_keys]; [cbn; auto|].
  pose proof S as (S1 & S2 & S3 & S4). rewrite <- S2. destruct (existsb _ _); [apply IH; exact S|].
  destruct (build_query k T_DNSKEY); cbn [obind same_result]; auto. destruct (negb _).
  - destruct (build_query k T_DS); cbn [obind same_result]; auto. cbn [pb_proof pb_min_ttl pb_requested pb_pending pb_made].
    match goal with |- same_result _ _ (request_keys t ?x ?q) (request_keys t ?y _) => apply (IH x y q) end.
    unfold same_but_proof; cbn; repeat split; congruence.
  - match goal with |- same_result _ _ (request_keys t ?x ?q) (request_keys t ?y _) => apply (IH x y q) end.
    unfold same_but_proof; cbn; repeat split; congruence.
Qed.
Lemma process_state dbg a b m : same_but_proof a b ->
  fst (process_response dbg a m) = fst (process_response dbg b m) /\
  same_but_proof (snd (process_response dbg a m)) (snd (process_response dbg b m)) /\
  exists x, pb_proof (snd (process_response dbg a m)) = pb_proof a ++ x /\ pb_proof (snd (process_response dbg b m)) = pb_proof b ++ x.
Proof.
  intros S. pose proof S as (S1 & S2 & S3 & S4). unfold process_response. rewrite <- S3. destruct (pb_pending a =? 0).
  { cbn [fst snd]. split; [reflexivity|]. split; [exact S|]. exists []. rewrite !app_nil_r. auto. }
  destruct (handle_response dbg m (pb_proof a, [])) as [r [p ns]] eqn:H.
  apply (handle_state _ _ _ (pb_proof b)) in H. destruct H as (x & E & H). cbn [fst snd] in *. rewrite H. subst p.
  destruct r as [ttl| | |].
  - assert (same_but_proof
      {| pb_proof := pb_proof a ++ x; pb_min_ttl := N.min (pb_min_ttl a) ttl; pb_requested := pb_requested a; pb_pending := pb_pending a - 1; pb_made := pb_made a |}
      {| pb_proof := pb_proof b ++ x; pb_min_ttl := N.min (pb_min_ttl b) ttl; pb_requested := pb_requested b; pb_pending := pb_pending a - 1; pb_made := pb_made b |}) as SS.
    { unfold same_but_proof; cbn; repeat split; congruence. }
    pose proof (request_state (dedup (sort_by bytes_cmp ns)) _ _ [] SS) as RS. unfold same_result in RS. cbn [pb_proof] in RS.
    destruct (request_keys _ _ _) as [[qa a']| | |]; destruct (request_keys _ _ _) as [[qb b']| | |]; try contradiction; cbn [fst snd].
    + destruct RS as (-> & S' & Pa & Pb). destruct S' as (T1 & T2 & T3 & T4). rewrite T4. split; [reflexivity|].
      split; [repeat split; assumption|]. exists x. rewrite Pa, Pb. auto.
    + subst. split; [reflexivity|]. split; [exact SS|]. exists x. auto.
    + split; [reflexivity|]. split; [exact SS|]. exists x. auto.
    + split; [reflexivity|]. split; [exact SS|]. exists x. auto.
  - cbn [fst snd]. split; [reflexivity|]. split; [repeat split; assumption|]. exists x. auto.
  - cbn [fst snd]. split; [reflexivity|]. split; [repeat split; assumption|]. exists x. auto.
  - cbn [fst snd]. split; [reflexivity|]. split; [repeat split; assumption|]. exists x. auto.
Qed.
