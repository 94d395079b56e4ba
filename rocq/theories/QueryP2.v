(** Lemmas about runs of the proof builder. *)
From Verif Require Import Base BaseP NameM NameSpec NameP WireM WireSpec RRM SerM RecSpec RecP RecP2 HeldP ValSpec ValM ValP QueryM QBufP QuerySpec QueryP.
From Coq Require Import Lia Arith Permutation.
Local Open Scope N_scope.

Definition key_queries (k : list N) : list (list N * N) := map (pair k) (key_types k).
Definition query_of (kt : list N * N) (q : qbuf) : Prop :=
  build_query (fst kt) (snd kt) = Ok q /\ Query (fst kt) (snd kt) (qb_deref q).
Definition cost (ks : list (list N)) : N := N.of_nat (length (flat_map key_types ks)).

Lemma key_types_spec k : key_types k = 48 :: if bytes_eqb k root_name then [] else [43].
Proof.
  unfold key_types, root_name, dot. destruct (list_eq_dec N.eq_dec k [46]) as [->|Ne]; [reflexivity|].
  replace (bytes_eqb k [46]) with false by (symmetry; apply bytes_eqb_neq; exact Ne). reflexivity.
Qed.
Lemma cost_app a b : cost (a ++ b) = cost a + cost b.
Proof. unfold cost. rewrite flat_map_app, app_length. lia. Qed.
Lemma cost_one k : cost [k] = if bytes_eqb k root_name then 1 else 2.
Proof. unfold cost. cbn [flat_map]. rewrite key_types_spec. destruct (bytes_eqb k root_name); reflexivity. Qed.

Lemma query_ok k t : valid_name k -> t < 65536 -> exists q, build_query k t = Ok q /\ query_of (k, t) q.
Proof. intros V T. destruct (build_query_spec k t V T) as (q & E & Q & _). exists q. split; [exact E|]. split; assumption. Qed.

Lemma request_keys_spec names : forall b qs, Forall valid_name names ->
  exists new qs', request_keys names b qs =
    Ok (qs ++ qs', {| pb_proof := pb_proof b; pb_min_ttl := pb_min_ttl b; pb_requested := pb_requested b ++ new;
                      pb_pending := pb_pending b + cost new; pb_made := pb_made b + cost new |}) /\
    (NoDup (pb_requested b) -> NoDup (pb_requested b ++ new)) /\
    (forall k, In k (pb_requested b ++ new) <-> In k (pb_requested b) \/ In k names) /\
    Forall2 query_of (flat_map key_queries new) qs'.
Proof.
  induction names as [|k t IH]; intros b qs V; cbn [request_keys].
  - exists [], []. rewrite !app_nil_r. change (cost []) with 0. rewrite !N.add_0_r. split; [destruct b; reflexivity|].
    split; [auto|]. split; [intros; cbn; tauto|constructor].
  - inversion V as [|? ? Vk Vt]; subst. destruct (existsb (bytes_eqb k) (pb_requested b)) eqn:X.
    + destruct (IH b qs Vt) as (new & qs' & E & ND & I & F). exists new, qs'. split; [exact E|]. split; [exact ND|]. split; [|exact F].
      intros x. rewrite I. apply existsb_exists in X. destruct X as (y & Iy & Ey). apply bytes_eqb_eq in Ey. subst y. cbn. split; [tauto|].
      intros [H|[<-|H]]; auto.
    + assert (NI : ~ In k (pb_requested b)).
      { intros I. enough (existsb (bytes_eqb k) (pb_requested b) = true) by congruence. apply existsb_exists. exists k. split; [exact I|apply bytes_eqb_refl]. }
      destruct (query_ok k 48 Vk) as (q1 & E1 & Q1); [lia|]. unfold T_DNSKEY. rewrite E1. cbn [obind].
      assert (Kt := key_types_spec k). assert (C1 := cost_one k).
      assert (ND' : NoDup (pb_requested b) -> NoDup (pb_requested b ++ [k])).
      { intros ND. apply (Permutation_NoDup (Permutation_cons_append _ _)). constructor; auto. }
      destruct (bytes_eqb k root_name); cbn [negb].
      * match goal with |- context [request_keys t ?b1 ?q] => destruct (IH b1 q Vt) as (new & qs' & E & ND & I & F) end.
        cbn [pb_requested pb_proof pb_min_ttl pb_pending pb_made] in *.
        exists (k :: new), (q1 :: qs'). rewrite E. split; [|split; [|split]].
        { change (k :: new) with ([k] ++ new). rewrite cost_app, C1, <- !app_assoc. do 3 f_equal; lia. }
        { intros N0. change (k :: new) with ([k] ++ new). rewrite app_assoc. apply ND. auto. }
        { intros x. change (k :: new) with ([k] ++ new). rewrite app_assoc, I, in_app_iff. cbn. tauto. }
        { cbn [flat_map]. unfold key_queries at 1. rewrite Kt. constructor; assumption. }
      * destruct (query_ok k 43 Vk) as (q2 & E2 & Q2); [lia|]. unfold T_DS. rewrite E2. cbn [obind].
        match goal with |- context [request_keys t ?b1 ?q] => destruct (IH b1 q Vt) as (new & qs' & E & ND & I & F) end.
        cbn [pb_requested pb_proof pb_min_ttl pb_pending pb_made] in *.
        exists (k :: new), (q1 :: q2 :: qs'). rewrite E. split; [|split; [|split]].
        { change (k :: new) with ([k] ++ new). rewrite cost_app, C1, <- !app_assoc. do 3 f_equal; lia. }
        { intros N0. change (k :: new) with ([k] ++ new). rewrite app_assoc. apply ND. auto. }
        { intros x. change (k :: new) with ([k] ++ new). rewrite app_assoc, I, in_app_iff. cbn. tauto. }
        { cbn [flat_map]. unfold key_queries at 1. rewrite Kt. constructor; [assumption|]. constructor; assumption. }
Qed.

Lemma in_dedup l k : In k (dedup l) <-> In k l.
Proof.
  induction l as [|x [|y t] IH]; [tauto|tauto|]. cbn [dedup] in *. destruct (bytes_eqb x y) eqn:E.
  - apply bytes_eqb_eq in E. subst y. rewrite IH. cbn. tauto.
  - cbn [In] in *. rewrite IH. tauto.
Qed.
Lemma in_dedup_sort l k : In k (dedup (sort_by bytes_cmp l)) <-> In k l.
Proof. rewrite in_dedup. pose proof (sort_perm bytes_cmp l) as P. split; apply Permutation_in; [apply Permutation_sym|]; exact P. Qed.

(** ** One call *)
Lemma process_ok dbg b m qs b' : is_bytes m -> process_response dbg b m = (Ok qs, b') ->
  exists items new qs', Response (negb dbg) m items /\ no_overflow dbg items /\ pb_pending b <> 0 /\
    b' = {| pb_proof := pb_proof b ++ write_all items; pb_min_ttl := N.min (pb_min_ttl b) (min_ttl items (2 ^ 32 - 1));
            pb_requested := pb_requested b ++ new; pb_pending := pb_pending b - 1 + cost new; pb_made := pb_made b + cost new |} /\
    (NoDup (pb_requested b) -> NoDup (pb_requested b ++ new)) /\
    (forall k, In k (pb_requested b ++ new) <-> In k (pb_requested b) \/ In k (flat_map signer_of items)) /\
    Forall2 query_of (flat_map key_queries new) qs' /\ qs = if pb_made b' <=? 10 then qs' else [].
Proof.
  intros B H. unfold process_response in H. destruct (N.eqb_spec (pb_pending b) 0) as [|Np]; [discriminate H|].
  destruct (handle_response dbg m (pb_proof b, [])) as [r [p ns]] eqn:Hr.
  destruct r as [ttl| | |]; try discriminate H.
  apply handle_sound in Hr; [|apply is_bytes_ok; exact B]. destruct Hr as (items & R & Hs & -> & NO). injection Hs as -> ->. cbn [app] in H.
  assert (V : Forall valid_name (dedup (sort_by bytes_cmp (flat_map signer_of items)))).
  { apply Forall_forall. intros k I. apply (proj1 (in_dedup_sort _ k)) in I. apply in_flat_map in I. destruct I as ([r t] & I & K).
    destruct (response_held _ _ _ R B) as [F _]. rewrite Forall_forall in F. apply F in I. destruct I as [I _]. cbn [fst] in I.
    destruct r; try (destruct K; fail). cbn in K. destruct K as [<-|[]]. unfold Held in I. cbn [typed_rr] in I. unfold valid_name. tauto. }
  match type of H with context [request_keys _ ?b1 ?q] => destruct (request_keys_spec _ b1 q V) as (new & qs' & E & ND & I & F) end.
  rewrite E in H. cbn [pb_requested pb_proof pb_min_ttl pb_pending pb_made app] in *. injection H as <- <-.
  exists items, new, qs'. split; [exact R|]. split; [exact NO|]. split; [exact Np|]. split; [reflexivity|]. split; [exact ND|].
  split; [|split; [exact F|reflexivity]]. intros k. rewrite I, in_dedup_sort. tauto.
Qed.
Lemma extends_no_err sls : forall q u, extends q sls <> Err u.
Proof.
  unfold extends. induction sls as [|s t IH]; intros q u; cbn [extends_at]; [discriminate|].
  destruct (extend_at STACK_BUF_LIMIT q s) eqn:E; cbn [obind]; [apply IH| |discriminate|discriminate].
  exfalso. unfold extend_at in E. destruct (STACK_BUF_LIMIT <? N.min _ _); destruct (negb _); discriminate E.
Qed.
Lemma request_no_err names : forall b qs u, request_keys names b qs <> Err u.
Proof.
  induction names as [|k t IH]; intros b qs u; cbn [request_keys]; [discriminate|].
  destruct (existsb _ _); [apply IH|].
  destruct (build_query k T_DNSKEY) eqn:E; cbn [obind]; [| |discriminate|discriminate].
  2: { intros _. eapply extends_no_err. exact E. }
  destruct (negb _); [|apply IH]. destruct (build_query k T_DS) eqn:E2; cbn [obind]; [apply IH| |discriminate|discriminate].
  intros _. eapply extends_no_err. exact E2.
Qed.
Lemma section_extends dbg resp keep n : forall read t0 hs r hs', read_section dbg resp keep n read t0 hs = (r, hs') -> exists x, fst hs' = fst hs ++ x.
Proof.
  induction n as [|n IH]; intros read t0 hs r hs' H; cbn [read_section] in H.
  - injection H as _ <-. exists []. rewrite app_nil_r. reflexivity.
  - destruct (parse_wire_packet_rr dbg read resp) as [[[rr t] read']| | |]; try (injection H as _ <-; exists []; rewrite app_nil_r; reflexivity).
    destruct (keep rr); [|eapply IH; exact H]. unfold emit in H. destruct (dbg && write_data_overflows rr).
    + injection H as _ <-. exists []. rewrite app_nil_r. reflexivity.
    + apply IH in H. destruct H as [x H]. cbn [fst] in H. rewrite <- app_assoc in H. eauto.
Qed.
Lemma handle_extends dbg resp hs r hs' : handle_response dbg resp hs = (r, hs') -> exists x, fst hs' = fst hs ++ x.
Proof.
  intros H. unfold handle_response in H.
  assert (N0 : forall (o : outcome unit N), (o, hs) = (r, hs') -> exists x, fst hs' = fst hs ++ x).
  { intros o E. injection E as _ <-. exists []. rewrite app_nil_r. reflexivity. }
  destruct (read_header resp) as [[[an au] read]| | |]; try (eapply N0; exact H).
  destruct (read_section dbg resp (fun _ => true) (N.to_nat an) read (2 ^ 32 - 1) hs) as [r1 hs1] eqn:S1.
  apply section_extends in S1. destruct S1 as [x1 S1].
  destruct r1 as [[t1 rest]| | |]; try (injection H as _ <-; eauto).
  destruct (read_section dbg resp authority_kept (N.to_nat au) rest t1 hs1) as [r2 hs2] eqn:S2.
  apply section_extends in S2. destruct S2 as [x2 S2]. rewrite S1, <- app_assoc in S2.
  destruct r2 as [[t2 rest2]| | |]; injection H as _ <-; eauto.
Qed.
Lemma builder_eta b : b = {| pb_proof := pb_proof b; pb_min_ttl := pb_min_ttl b; pb_requested := pb_requested b; pb_pending := pb_pending b; pb_made := pb_made b |}.
Proof. destruct b. reflexivity. Qed.
Lemma process_err dbg b m u b' : process_response dbg b m = (Err u, b') ->
  exists x, b' = {| pb_proof := pb_proof b ++ x; pb_min_ttl := pb_min_ttl b; pb_requested := pb_requested b;
                    pb_pending := pb_pending b; pb_made := pb_made b |}.
Proof.
  intros H. unfold process_response in H. destruct (pb_pending b =? 0).
  - injection H as _ <-. exists []. rewrite app_nil_r. apply builder_eta.
  - destruct (handle_response dbg m (pb_proof b, [])) as [r [p ns]] eqn:Hr.
    apply handle_extends in Hr. destruct Hr as [x Hx]. cbn [fst] in Hx. subst p.
    destruct r as [ttl| | |]; try discriminate H.
    + destruct (request_keys _ _ _) as [[qs b2]| | |] eqn:E; try discriminate H. exfalso. eapply request_no_err. exact E.
    + injection H as _ <-. exists x. reflexivity.
Qed.
(** A response rejected for its header changes nothing. *)
Lemma process_err_header dbg b m u b' : (exists u, read_header m = Err u) -> process_response dbg b m = (Err u, b') -> b' = b.
Proof.
  intros [v Hh] H. unfold process_response in H. destruct (pb_pending b =? 0); [injection H as _ <-; reflexivity|].
  unfold handle_response in H. rewrite Hh in H. injection H as _ <-. symmetry. apply builder_eta.
Qed.

(** ** Runs *)
Lemma accepted_snoc tr m r : accepted (tr ++ [(m, r)]) = accepted tr ++ if is_ok r then [m] else [].
Proof. unfold accepted. rewrite filter_app, map_app. cbn [filter snd]. destruct (is_ok r); reflexivity. Qed.
Lemma handed_snoc tr m r : handed (tr ++ [(m, r)]) = handed tr ++ match r with Ok qs => qs | _ => [] end.
Proof. unfold handed. rewrite flat_map_app. cbn [flat_map snd]. rewrite app_nil_r. reflexivity. Qed.
Definition all_ok (tr : list (list N * outcome unit (list qbuf))) : Prop := Forall (fun c => is_ok (snd c) = true) tr.

Lemma signer_snoc_err lax tr m u k : Signer lax (tr ++ [(m, Err u)]) k <-> Signer lax tr k.
Proof. unfold Signer. rewrite accepted_snoc. cbn [is_ok]. rewrite app_nil_r. tauto. Qed.
Lemma signer_snoc_ok lax tr m qs items k : Response lax m items ->
  (Signer lax (tr ++ [(m, Ok qs)]) k <-> Signer lax tr k \/ In k (flat_map signer_of items)).
Proof.
  intros R. unfold Signer. rewrite accepted_snoc. cbn [is_ok]. split.
  - intros (m' & i & rt & I & R' & J & K). apply in_app_or in I. destruct I as [I|[<-|[]]].
    + left. exists m', i, rt. auto.
    + right. rewrite (response_unique _ _ _ _ R R'). apply in_flat_map. eauto.
  - intros [(m' & i & rt & I & R' & J & K)|H].
    + exists m', i, rt. split; [apply in_or_app; auto|auto].
    + apply in_flat_map in H. destruct H as (rt & J & K). exists m, items, rt. split; [apply in_or_app; right; left; reflexivity|auto].
Qed.

Record Inv (dbg : bool) (tr : list (list N * outcome unit (list qbuf))) (b : builder) : Prop := {
  inv_nodup : NoDup (pb_requested b);
  inv_signers : forall k, In k (pb_requested b) <-> Signer (negb dbg) tr k;
  inv_made : pb_made b = 1 + cost (pb_requested b);
  inv_pending : pb_pending b + len (accepted tr) = pb_made b;
  inv_handed : (length (handed tr) <= 9)%nat;
  inv_queries : pb_made b <= 10 -> Forall2 query_of (flat_map key_queries (pb_requested b)) (handed tr);
  inv_items : exists itemss, Forall2 (Response (negb dbg)) (accepted tr) itemss /\
    Forall (fun rt => Held (fst rt) /\ is_u32 (snd rt)) (concat itemss) /\ no_overflow dbg (concat itemss) /\
    pb_min_ttl b = min_ttl (concat itemss) (2 ^ 32 - 1) /\ (all_ok tr -> pb_proof b = write_all (concat itemss))
}.

Lemma forall2_length {A B} (R : A -> B -> Prop) l l' : Forall2 R l l' -> length l = length l'.
Proof. induction 1; cbn; congruence. Qed.
Lemma key_queries_length ks : length (flat_map key_queries ks) = length (flat_map key_types ks).
Proof. induction ks as [|k t IH]; [reflexivity|]. cbn [flat_map]. rewrite !app_length, IH. unfold key_queries. rewrite map_length. reflexivity. Qed.
Lemma write_all_app a b : write_all (a ++ b) = write_all a ++ write_all b.
Proof. apply flat_map_app. Qed.
Lemma min_ttl_min l a b : min_ttl l (N.min a b) = N.min a (min_ttl l b).
Proof.
  unfold min_ttl. revert b. induction (map snd l) as [|x t IH]; intros b; [reflexivity|]. cbn [fold_left].
  rewrite <- N.min_assoc. apply IH.
Qed.
Lemma min_ttl_le l b : min_ttl l b <= b.
Proof. unfold min_ttl. revert b. induction (map snd l) as [|x t IH]; intros b; cbn [fold_left]; [lia|]. specialize (IH (N.min b x)). lia. Qed.

Lemma calls_inv dbg tr b : Calls dbg builder_init tr b -> Forall (fun c => is_bytes (fst c)) tr -> Inv dbg tr b.
Proof.
  remember builder_init as b0 eqn:E0. intros C. induction C as [b|b tr b1 m r b2 C IH P NP NL]; intros B.
  - subst b. constructor; cbn.
    + constructor.
    + intros k. split; [intros []|]. intros (m & i & rt & [] & _).
    + reflexivity.
    + reflexivity.
    + lia.
    + intros _. constructor.
    + exists []. split; [constructor|]. split; [constructor|]. split; [intros _; constructor|]. split; [reflexivity|]. reflexivity.
  - apply Forall_app in B. destruct B as [B Bm]. inversion Bm as [|? ? Bm' _]; subst. cbn [fst] in Bm'.
    destruct (IH eq_refl B) as [ND SG MD PD HD QS (its & R & F & NO & TT & PR)]. clear IH C.
    destruct r as [qs|u| |]; [| |contradiction|contradiction].
    + apply process_ok in P; [|exact Bm']. destruct P as (items & new & qs' & Re & NOi & Np & -> & ND' & I' & Fq & Eq).
      cbn [pb_requested pb_proof pb_min_ttl pb_pending pb_made] in *.
      assert (Q2 : pb_made b1 + cost new <= 10 -> Forall2 query_of (flat_map key_queries (pb_requested b1 ++ new)) (handed tr ++ qs)).
      { intros L. rewrite flat_map_app. apply Forall2_app; [apply QS; lia|]. rewrite Eq. replace (_ <=? 10) with true by (symmetry; apply N.leb_le; lia). exact Fq. }
      constructor; cbn [pb_requested pb_proof pb_min_ttl pb_pending pb_made].
      * apply ND'. exact ND.
      * intros k. rewrite I', (signer_snoc_ok _ _ _ _ items) by exact Re. rewrite SG. tauto.
      * rewrite cost_app. lia.
      * rewrite accepted_snoc. cbn [is_ok]. rewrite len_app, len_cons, len_nil. lia.
      * rewrite handed_snoc. destruct (N.leb_spec (pb_made b1 + cost new) 10) as [L|L].
        { apply Q2 in L as Q. apply forall2_length in Q. rewrite <- Q, key_queries_length. unfold cost in *.
          rewrite flat_map_app, app_length. lia. }
        { subst qs. rewrite app_nil_r. exact HD. }
      * intros L. rewrite handed_snoc. apply Q2. exact L.
      * exists (its ++ [items]). rewrite accepted_snoc. cbn [is_ok]. rewrite concat_app. cbn [concat]. rewrite app_nil_r.
        destruct (response_held _ _ _ Re Bm') as [Fi _].
        split; [apply Forall2_app; [exact R|constructor; [exact Re|constructor]]|]. split; [apply Forall_app; auto|].
        split; [intros D; apply Forall_app; auto|]. split.
        { rewrite min_ttl_app, TT. pose proof (min_ttl_le (concat its) (2 ^ 32 - 1)) as Le.
          replace (min_ttl (concat its) (2 ^ 32 - 1)) with (N.min (min_ttl (concat its) (2 ^ 32 - 1)) (2 ^ 32 - 1)) at 2 by lia.
          rewrite min_ttl_min. reflexivity. }
        { intros A. apply Forall_app in A. destruct A as [A _]. rewrite write_all_app, (PR A). reflexivity. }
    + apply process_err in P. destruct P as [x ->]. constructor; cbn [pb_requested pb_proof pb_min_ttl pb_pending pb_made].
      * exact ND.
      * intros k. rewrite signer_snoc_err. apply SG.
      * exact MD.
      * rewrite accepted_snoc. cbn [is_ok]. rewrite app_nil_r. exact PD.
      * rewrite handed_snoc, app_nil_r. exact HD.
      * intros L. rewrite handed_snoc, app_nil_r. apply QS. exact L.
      * exists its. rewrite accepted_snoc. cbn [is_ok]. rewrite app_nil_r. repeat (split; [assumption|]).
        intros A. apply Forall_app in A. destruct A as [_ A]. inversion A; discriminate.
Qed.
