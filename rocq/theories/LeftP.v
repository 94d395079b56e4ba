(** Proofs for Prop_Builder: what responses which are turned down leave behind. *)
From Verif Require Import Base BaseP NameM NameSpec NameP WireM WireSpec WireP RRM SerM RecSpec RecP RecP2 HeldP ValSpec QueryM QuerySpec QBufP QueryP QueryP2 QueryP3 QueryP4.
From Coq Require Import Lia Arith.
Local Open Scope N_scope.

Lemma section_err dbg resp keep n : forall read t0 p ns u hs', bytes_ok read = true ->
  read_section dbg resp keep n read t0 (p, ns) = (Err u, hs') ->
  exists b l tail, read = b ++ tail /\ Records (negb dbg) resp b l /\ (length l < n)%nat /\ NoRecord (negb dbg) resp tail /\
    fst hs' = p ++ write_all (filter (fun rt => keep (fst rt)) l).
Proof.
  induction n as [|n IH]; intros read t0 p ns u hs' B H; cbn [read_section] in H; [discriminate H|].
  destruct (parse_wire_packet_rr dbg read resp) as [[[r t] read']|x| |] eqn:E; try discriminate H.
  - apply parse_rr_sound in E; [|exact B]. destruct E as (rec & -> & Re). apply bytes_ok_app_inv in B. destruct B as [_ B].
    assert (G : exists b l tail, read' = b ++ tail /\ Records (negb dbg) resp b l /\ (length l < n)%nat /\ NoRecord (negb dbg) resp tail /\
      fst hs' = (if keep r then p ++ write_rr r t else p) ++ write_all (filter (fun rt => keep (fst rt)) l)).
    { destruct (keep r) eqn:K.
      - unfold emit in H. destruct (dbg && write_data_overflows r) eqn:O; [discriminate H|]. cbn [fst snd] in H. eapply IH; eassumption.
      - eapply IH; eassumption. }
    destruct G as (b & l & tail & -> & Rs & L & NR & Hp). exists (rec ++ b), ((r, t) :: l), tail. split; [apply app_assoc|]. split; [constructor; assumption|].
    split; [cbn [length]; lia|]. split; [exact NR|]. rewrite Hp. cbn [filter fst]. destruct (keep r); [|reflexivity].
    unfold write_all. cbn [flat_map fst snd]. rewrite <- app_assoc. reflexivity.
  - injection H as _ <-. exists [], [], read. split; [reflexivity|]. split; [constructor|]. split; [cbn; lia|]. split; [|cbn; rewrite app_nil_r; reflexivity].
    intros rec r ttl rest -> Re. pose proof (parse_rr_complete _ _ _ _ _ rest Re) as X. congruence.
Qed.

Lemma left_header dbg m items : is_bytes m -> Left (negb dbg) m items -> exists an au b l tail,
  read_header m = Ok (N.of_nat an, N.of_nat au, b ++ tail) /\ Records (negb dbg) m b l /\ (length l < an + au)%nat /\ NoRecord (negb dbg) m tail /\
  items = contribution (firstn an l) (skipn an l).
Proof.
  intros B (f & an & au & ex & nb & n & qty & qcl & b & l & tail & E & Nn & F1 & F2 & F3 & F4 & F5 & Na & R & L & NR & ->).
  exists an, au, b, l, tail. split; [|auto].
  assert (F : f < 65536). { rewrite E in B. apply is_bytes_app in B as [_ B]. apply is_bytes_app in B as [B _]. apply u16_bytes. exact B. }
  eapply header_complete; [exact E|exact Nn| |lia]. rewrite flags_spec by exact F. apply flags_want_iff. auto.
Qed.
Lemma handle_err dbg m p ns u hs' : is_bytes m -> handle_response dbg m (p, ns) = (Err u, hs') ->
  exists items, (Left (negb dbg) m items \/ items = [] /\ forall i, ~ Left (negb dbg) m i) /\ fst hs' = p ++ write_all items.
Proof.
  intros B H. assert (B' : bytes_ok m = true) by (apply is_bytes_ok; exact B).
  unfold handle_response in H. destruct (read_header m) as [[[an au] read]|x| |] eqn:Hh; try discriminate H.
  2: { injection H as _ <-. exists []. split; [right; split; [reflexivity|]|cbn; rewrite app_nil_r; reflexivity].
       intros i X. destruct (left_header _ _ _ B X) as (? & ? & ? & ? & ? & X' & _). congruence. }
  pose proof Hh as Hh'. apply header_sound in Hh'; [|exact B']. destruct Hh' as (f & ex & nb & n & qty & qcl & E & Nn & Lf & F & Na).
  assert (Br : bytes_ok read = true). { rewrite E in B'. repeat (apply bytes_ok_app_inv in B'; destruct B' as [_ B']). exact B'. }
  rewrite flags_spec in F by exact Lf. apply flags_want_iff in F. destruct F as (F1 & F2 & F3 & F4 & F5).
  destruct (read_section dbg m (fun _ => true) (N.to_nat an) read (2 ^ 32 - 1) (p, ns)) as [[[t1 r1]|x| |] [p1 ns1]] eqn:S1; try discriminate H.
  - apply section_sound in S1; [|exact Br]. destruct S1 as (b & l & -> & R1 & L1 & Hs1 & T1 & O1). rewrite filter_true in *. injection Hs1 as -> ->.
    apply bytes_ok_app_inv in Br. destruct Br as [_ Br].
    destruct (read_section dbg m authority_kept (N.to_nat au) r1 t1 _) as [[[t2 r2]|x| |] hs2] eqn:S2; try discriminate H.
    injection H as _ <-. apply section_err in S2; [|exact Br]. destruct S2 as (b2 & l2 & tail & -> & R2 & L2 & NR & Hp).
    exists (contribution l l2). split; [left|].
    + exists f, (N.to_nat an), (N.to_nat au), ex, nb, n, qty, qcl, (b ++ b2), (l ++ l2), tail. rewrite !N2Nat.id, <- !app_assoc.
      split; [exact E|]. do 6 (split; [assumption|]). split; [lia|]. split; [apply records_app; assumption|]. split; [rewrite app_length; lia|]. split; [exact NR|].
      rewrite <- L1, firstn_app, firstn_all, Nat.sub_diag, skipn_app, skipn_all, Nat.sub_diag. cbn [firstn skipn app]. rewrite app_nil_r. reflexivity.
    + rewrite Hp, (filter_ext (fun rt => authority_kept (fst rt)) (fun rt => denial_record (fst rt))) by (intros; apply denial_kept).
      unfold contribution. rewrite write_all_app, app_assoc. reflexivity.
  - injection H as _ <-. apply section_err in S1; [|exact Br]. destruct S1 as (b & l & tail & -> & R & L & NR & Hp). rewrite filter_true in Hp.
    exists (contribution l []). split; [left|].
    + exists f, (N.to_nat an), (N.to_nat au), ex, nb, n, qty, qcl, b, l, tail. rewrite !N2Nat.id.
      split; [exact E|]. do 6 (split; [assumption|]). split; [lia|]. split; [assumption|]. split; [lia|]. split; [exact NR|].
      rewrite firstn_all2, skipn_all2 by lia. reflexivity.
    + rewrite Hp. unfold contribution. cbn [filter]. rewrite app_nil_r. reflexivity.
Qed.
Lemma process_left dbg b m u b' : is_bytes m -> pb_pending b <> 0 -> process_response dbg b m = (Err u, b') ->
  exists items, (Left (negb dbg) m items \/ items = [] /\ forall i, ~ Left (negb dbg) m i) /\
    b' = {| pb_proof := pb_proof b ++ flat_map (fun rt => write_rr (fst rt) (snd rt)) items; pb_min_ttl := pb_min_ttl b; pb_requested := pb_requested b;
            pb_pending := pb_pending b; pb_made := pb_made b |}.
Proof.
  intros B P H. unfold process_response in H. destruct (N.eqb_spec (pb_pending b) 0) as [|_]; [contradiction|].
  destruct (handle_response dbg m (pb_proof b, [])) as [r [p ns]] eqn:Hr. destruct r as [ttl|x| |]; try discriminate H.
  - destruct (request_keys _ _ _) as [[qs b2]| | |] eqn:E; try discriminate H. exfalso. eapply request_no_err. exact E.
  - injection H as _ <-. apply handle_err in Hr; [|exact B]. destruct Hr as (items & A & Hp). cbn [fst] in Hp. subst p. exists items. auto.
Qed.

Lemma records_maximal lax m b l : Records lax m b l -> forall b' l' tail tail', Records lax m b' l' -> b ++ tail = b' ++ tail' ->
  NoRecord lax m tail -> NoRecord lax m tail' -> l = l'.
Proof.
  intros R. induction R as [|rec r t b l Re R IH]; intros b' l' tail tail' R' E N1 N2.
  - destruct R' as [|rec' r' t' b' l' Re' R']; [reflexivity|]. exfalso. cbn [app] in E. rewrite <- app_assoc in E. exact (N1 _ _ _ _ E Re').
  - destruct R' as [|rec' r' t' b' l' Re' R'].
    + exfalso. cbn [app] in E. rewrite <- app_assoc in E. exact (N2 _ _ _ _ (eq_sym E) Re).
    + rewrite <- !app_assoc in E. replace lax with (negb (negb lax)) in * by apply negb_involutive.
      pose proof (parse_rr_complete _ _ _ _ _ (b ++ tail) Re) as P. pose proof (parse_rr_complete _ _ _ _ _ (b' ++ tail') Re') as P'.
      rewrite E in P. rewrite P in P'. injection P' as <- <- E2. f_equal. eapply IH; eassumption.
Qed.
Lemma left_unique lax m i j : is_bytes m -> Left lax m i -> Left lax m j -> i = j.
Proof.
  intros B H1 H2. replace lax with (negb (negb lax)) in * by apply negb_involutive.
  destruct (left_header _ _ _ B H1) as (an & au & b & l & tail & E & R & _ & NR & ->). destruct (left_header _ _ _ B H2) as (an' & au' & b' & l' & tail' & E' & R' & _ & NR' & ->).
  rewrite E in E'. injection E' as A1 A2 A3. apply Nat2N.inj in A1. subst an'. rewrite (records_maximal _ _ _ _ R _ _ _ _ R' A3 NR NR'). reflexivity.
Qed.

Definition call_items (lax : bool) (c : list N * outcome unit (list qbuf)) (items : list (RR * N)) : Prop :=
  if is_ok (snd c) then Response lax (fst c) items else Left lax (fst c) items \/ items = [].
Lemma left_held lax m items : Left lax m items -> is_bytes m -> Forall (fun rt => Held (fst rt) /\ is_u32 (snd rt)) items.
Proof.
  intros (f & an & au & ex & nb & n & qty & qcl & b & l & tail & E & _ & _ & _ & _ & _ & _ & _ & R & _ & _ & ->) B.
  rewrite E in B. do 9 (apply is_bytes_app in B; destruct B as [_ B]). apply is_bytes_app in B. destruct B as [B _].
  pose proof (records_held _ _ _ _ R B) as F. rewrite Forall_forall in *. intros rt I. apply F. unfold contribution in I. apply in_app_iff in I. destruct I as [I|I].
  - rewrite <- (firstn_skipn an l). apply in_app_iff. auto.
  - apply filter_In in I. rewrite <- (firstn_skipn an l). apply in_app_iff. right. apply I.
Qed.
Lemma calls_items dbg tr b : Calls dbg builder_init tr b -> Forall (fun c => is_bytes (fst c)) tr ->
  exists itemss, Forall2 (call_items (negb dbg)) tr itemss /\ pb_proof b = write_all (concat itemss) /\ Forall (fun rt => Held (fst rt) /\ is_u32 (snd rt)) (concat itemss) /\
    pb_min_ttl b = min_ttl (concat (map snd (filter (fun ci => is_ok (snd (fst ci))) (combine tr itemss)))) (2 ^ 32 - 1).
Proof.
  remember builder_init as b0 eqn:E0. intros C. induction C as [b|b tr b1 m r b2 C IH P NP NL]; intros B.
  - subst b. exists []. split; [constructor|]. split; [reflexivity|]. split; [constructor|reflexivity].
  - apply Forall_app in B. destruct B as [B Bm]. inversion Bm as [|? ? Bm' _]; subst. cbn [fst] in Bm'.
    destruct (IH eq_refl B) as (its & F & PR & Fh & TT). clear IH C. pose proof (forall2_length _ _ _ F) as LE.
    assert (CO : forall x, combine (tr ++ [(m, r)]) (its ++ [x]) = combine tr its ++ [((m, r), x)]).
    { intros x. clear -LE. revert its LE. induction tr as [|c tr IH]; intros [|i its] LE; try discriminate LE; [reflexivity|]. cbn [app combine]. rewrite IH; [reflexivity|]. cbn in LE. lia. }
    destruct r as [qs|u| |]; [| |contradiction|contradiction].
    + apply process_ok in P; [|exact Bm']. destruct P as (items & new & qs' & Re & NOi & Np & -> & _). exists (its ++ [items]).
      split; [apply Forall2_app; [exact F|constructor; [exact Re|constructor]]|]. rewrite concat_app. cbn [concat pb_proof pb_min_ttl]. rewrite app_nil_r.
      split; [rewrite write_all_app, PR; reflexivity|]. split; [apply Forall_app; split; [exact Fh|apply (response_held _ _ _ Re Bm')]|].
      rewrite CO, filter_app, map_app, concat_app. cbn [filter fst snd is_ok map concat]. rewrite app_nil_r, min_ttl_app, TT.
      set (k := min_ttl _ _). assert (Le : k <= 2 ^ 32 - 1) by apply min_ttl_le.
      replace k with (N.min k (2 ^ 32 - 1)) at 2 by lia. rewrite min_ttl_min. reflexivity.
    + assert (X : exists items, (Left (negb dbg) m items \/ items = []) /\ pb_proof b2 = pb_proof b1 ++ write_all items /\ pb_min_ttl b2 = pb_min_ttl b1).
      { destruct (N.eq_dec (pb_pending b1) 0) as [Z|NZ].
        - exists []. split; [right; reflexivity|]. unfold process_response in P. apply N.eqb_eq in Z. rewrite Z in P. injection P as _ <-. cbn. rewrite app_nil_r. auto.
        - destruct (process_left _ _ _ _ _ Bm' NZ P) as (items & A & ->). exists items. split; [tauto|]. split; reflexivity. }
      destruct X as (items & A & Ep & Et). exists (its ++ [items]).
      split; [apply Forall2_app; [exact F|constructor; [exact A|constructor]]|]. rewrite concat_app. cbn [concat]. rewrite app_nil_r.
      split; [rewrite write_all_app, Ep, PR; reflexivity|].
      split; [apply Forall_app; split; [exact Fh|destruct A as [A| ->]; [apply (left_held _ _ _ A Bm')|constructor]]|].
      rewrite CO, filter_app. cbn [filter fst snd is_ok]. rewrite app_nil_r, Et. exact TT.
Qed.
Lemma accepted_items lax tr its : Forall2 (call_items lax) tr its ->
  Forall2 (Response lax) (accepted tr) (map snd (filter (fun ci => is_ok (snd (fst ci))) (combine tr its))).
Proof.
  induction 1 as [|c i tr its R F IH]; [constructor|]. unfold accepted in *. cbn [combine filter fst]. unfold call_items in R.
  destruct (is_ok (snd c)); [|exact IH]. cbn [map snd]. constructor; assumption.
Qed.
Lemma finished_any dbg n ty b0 q0 tr b proof ttl : builder_new n ty = Ok (b0, q0) -> Calls dbg b0 tr b -> Forall (fun c => is_bytes (fst c)) tr ->
  finish_proof b = Ok (proof, ttl) ->
  exists itemss, Forall2 (fun c items => if is_ok (snd c) then Response (negb dbg) (fst c) items else Left (negb dbg) (fst c) items \/ items = []) tr itemss /\
    proof = flat_map (fun rt => write_rr (fst rt) (snd rt)) (concat itemss) /\
    is_min ttl (map snd (concat (map snd (filter (fun ci => is_ok (snd (fst ci))) (combine tr itemss))))) /\
    (forall dbg', Forall wf_rr (map fst (concat itemss)) -> parse_rr_stream dbg' proof = Ok (map fst (concat itemss))).
Proof.
  intros E C B F. unfold builder_new in E. apply obind_ok in E as (q & _ & E). injection E as <- <-.
  destruct (calls_inv _ _ _ C B) as [ND SG MD PD HD QS _]. destruct (calls_items _ _ _ C B) as (its & R & PR & Fh & TT).
  unfold finish_proof in F. destruct (N.ltb_spec 0 (pb_pending b)) as [P|P]; cbn [orb] in F; [discriminate F|].
  destruct (N.ltb_spec MAX_REQUESTS (pb_made b)) as [M|M]; [discriminate F|]. injection F as <- <-.
  exists its. split; [exact R|]. split; [exact PR|]. pose proof (accepted_items _ _ _ R) as RA. split.
  - rewrite TT. apply min_ttl_is_min.
    + rewrite MD in PD. intros X. assert (L : len (accepted tr) <> 0) by (unfold cost in *; lia).
      destruct RA as [|m i ms iss R1 RA]; [apply L; reflexivity|]. cbn [concat] in X. apply app_eq_nil in X. destruct X as [-> _].
      destruct R1 as (f & ans & auth & _ & _ & _ & _ & _ & _ & NE & X). symmetry in X. apply app_eq_nil in X. tauto.
    + rewrite Forall_forall in *. intros rt I. assert (In rt (concat its)).
      { apply in_concat in I as (x & I1 & I2). apply in_map_iff in I1 as ([c y] & <- & I1). apply filter_In in I1 as [I1 _]. apply in_combine_r in I1. apply in_concat. exists y. auto. }
      apply Fh in H. destruct H as [_ H]. unfold is_u32 in H. lia.
  - intros dbg' W. rewrite PR. apply write_parse_stream. apply Forall_forall. intros [r t] I. rewrite Forall_forall in W, Fh. split.
    + apply W. apply in_map_iff. exists (r, t). auto.
    + apply Fh in I. apply I.
Qed.
Lemma signer_queried dbg n ty b0 q0 tr b res k qty : builder_new n ty = Ok (b0, q0) -> Calls dbg b0 tr b -> Forall (fun c => is_bytes (fst c)) tr ->
  finish_proof b = Ok res -> Signer (negb dbg) tr k -> In qty (key_types k) -> exists q, In q (handed tr) /\ Query k qty (qb_deref q).
Proof.
  intros E C B F S T. destruct (builder_status _ _ _ _ _ _ _ E C B) as (keys & _ & K & _ & Fi & _ & Q).
  assert (Fi' : exists res, finish_proof b = Ok res) by eauto. apply Fi in Fi'. destruct Fi' as [_ L]. specialize (Q L). apply K in S.
  assert (I : In (k, qty) (flat_map (fun k => map (pair k) (key_types k)) keys)).
  { apply in_flat_map. exists k. split; [exact S|]. apply in_map. exact T. }
  revert I. generalize dependent (flat_map (fun k => map (pair k) (key_types k)) keys). intros kts Q I.
  induction Q as [|kt q kts qs Hq Q IH]; [destruct I|]. destruct I as [->|I].
  - exists q. split; [left; reflexivity|exact Hq].
  - destruct (IH I) as (q' & I' & H'). exists q'. split; [right; exact I'|exact H'].
Qed.
Lemma builder_queries dbg n ty b0 q0 tr b : builder_new n ty = Ok (b0, q0) -> Calls dbg b0 tr b -> Forall (fun c => is_bytes (fst c)) tr ->
  exists keys, NoDup keys /\ (forall k, In k keys <-> Signer (negb dbg) tr k) /\
    ((needed keys <= 10)%nat -> Forall2 (fun kt q => Query (fst kt) (snd kt) (qb_deref q)) (flat_map (fun k => map (pair k) (key_types k)) keys) (handed tr)).
Proof. intros E C B. destruct (builder_status _ _ _ _ _ _ _ E C B) as (keys & K1 & K2 & _ & _ & _ & K3). exists keys. auto. Qed.
Lemma builder_finish dbg n ty b0 q0 tr b : builder_new n ty = Ok (b0, q0) -> Calls dbg b0 tr b -> Forall (fun c => is_bytes (fst c)) tr ->
  exists keys, NoDup keys /\ (forall k, In k keys <-> Signer (negb dbg) tr k) /\
    (awaiting_responses b = true <-> (length (accepted tr) < needed keys)%nat /\ (needed keys <= 10)%nat) /\
    ((exists res, finish_proof b = Ok res) <-> (length (accepted tr) = needed keys)%nat /\ (needed keys <= 10)%nat) /\
    (length (accepted tr) <= needed keys)%nat.
Proof. intros E C B. destruct (builder_status _ _ _ _ _ _ _ E C B) as (keys & K1 & K2 & K3 & K4 & K5 & _). exists keys. auto. Qed.
