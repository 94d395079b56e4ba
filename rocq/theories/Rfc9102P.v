(** Proofs for C77. *)
From Verif Require Import Base BaseP NameM NameSpec WireM RRM SerM RecSpec RecP2 QueryM QuerySpec QueryP QueryP2 QueryP3 Rfc9102Spec.
From Coq Require Import Permutation Arith.
Local Open Scope N_scope.

Lemma calls_prefix dbg b tr2 : forall tr1 b2, Calls dbg b (tr1 ++ tr2) b2 -> exists b1, Calls dbg b tr1 b1.
Proof.
  induction tr2 as [| c tr2 IH] using rev_ind; intros tr1 b2 C; [rewrite app_nil_r in C; eauto |]. rewrite app_assoc in C.
  inversion C as [| ? tr b1 m r b2' C' P N1 N2 E1 E2]; [destruct (tr1 ++ tr2); discriminate |]. subst. apply app_inj_tail in E2 as [-> _]. eauto.
Qed.
Lemma handed_app a b : handed (a ++ b) = handed a ++ handed b.
Proof. apply flat_map_app. Qed.
Lemma signer_more lax tr c k : Signer lax tr k -> Signer lax (tr ++ [c]) k.
Proof. intros (m & i & rt & A & R). exists m, i, rt. split; [| exact R]. destruct c as [x r]. rewrite accepted_snoc. apply in_or_app. auto. Qed.
(** Queries are only for signers which have occurred. *)
Lemma handed_signed dbg tr b : Calls dbg builder_init tr b -> Forall (fun c => is_bytes (fst c)) tr ->
  forall q, In q (handed tr) -> exists k t, Query k t (qb_deref q) /\ In t (key_types k) /\ Signer (negb dbg) tr k.
Proof.
  remember builder_init as b0 eqn:E0. intros C. induction C as [b | b tr b1 m r b2 C IH P NP NL]; intros B q Hq; [destruct Hq |].
  apply Forall_app in B as [B Bm]. inversion Bm as [| ? ? Bm' _]; subst. cbn [fst] in Bm'. rewrite handed_snoc in Hq. apply in_app_or in Hq as [Hq | Hq].
  - destruct (IH eq_refl B q Hq) as (k & t & H1 & H2 & H3). exists k, t. split; [exact H1 |]. split; [exact H2 |]. apply signer_more. exact H3.
  - destruct r as [qs | | |]; try contradiction. pose proof (calls_inv _ _ _ C B) as [_ SG _ _ _ _ _].
    apply process_ok in P; [| exact Bm']. destruct P as (items & new & qs' & Re & NOi & Np & -> & ND' & I' & Fq & Eq).
    assert (Hq' : In q qs') by (destruct (_ <=? 10); subst qs; [exact Hq | destruct Hq]). clear Eq Hq.
    assert (X : exists kt, In kt (flat_map key_queries new) /\ query_of kt q).
    { clear -Fq Hq'. induction Fq as [| kt q' l l' H F IH]; [destruct Hq' |]. destruct Hq' as [-> | Hq']; [exists kt; split; [left; reflexivity | exact H] |].
      destruct (IH Hq') as (kt' & H1 & H2). exists kt'. split; [right; exact H1 | exact H2]. }
    destruct X as ([k t] & Hk & Hqo). apply in_flat_map in Hk as (k' & Hk & Hkt). unfold key_queries in Hkt. apply in_map_iff in Hkt as (t' & E & Ht). injection E as <- <-.
    exists k', t'. split; [apply Hqo |]. split; [exact Ht |]. apply (signer_snoc_ok _ _ _ _ items _ Re). rewrite <- SG. apply I'. apply in_or_app. right. exact Hk.
Qed.

Lemma nodup_bound (l : list nat) n : NoDup l -> (forall p, In p l -> (p < n)%nat) -> length l = n -> forall p, (p < n)%nat -> In p l.
Proof.
  intros ND B L p Hp. assert (I : incl (seq 0 n) l).
  { apply NoDup_length_incl; [exact ND | rewrite seq_length; lia |]. intros x Hx. apply in_seq. apply B in Hx. lia. }
  apply I. apply in_seq. lia.
Qed.

Lemma chain_order dbg n ty b0 q0 tr b proof ttl pos : builder_new n ty = Ok (b0, q0) -> Calls dbg b0 tr b -> Forall (fun c => is_bytes (fst c)) tr ->
  finish_proof b = Ok (proof, ttl) -> Forall (fun c => is_ok (snd c) = true) tr -> Answering tr pos ->
  exists itemss, Forall2 (Response (negb dbg)) (map fst tr) itemss /\ proof = flat_map (fun rt => write_rr (fst rt) (snd rt)) (concat itemss) /\
    nth_error pos 0 = Some 0%nat /\ (forall p, In p pos <-> (p <= length (handed tr))%nat) /\
    (forall k, In k (flat_map signer_of (concat itemss)) -> forall t, In t (key_types k) -> exists q, In q (handed tr) /\ Query k t (qb_deref q)) /\
    forall i p, nth_error pos (S i) = Some p -> exists q k t, nth_error (q0 :: handed tr) p = Some q /\ Query k t (qb_deref q) /\ In t (key_types k) /\
      exists j its rt, (j <= i)%nat /\ nth_error itemss j = Some its /\ In rt its /\ In k (signer_of rt).
Proof.
  intros E C B F A (PL & PN & PB). destruct (finished_items _ _ _ _ _ _ _ _ _ E C B F A) as (itemss & R & EP & _).
  exists itemss. split; [exact R |]. split; [exact EP |].
  destruct (builder_status _ _ _ _ _ _ _ E C B) as (keys & NK & K & _ & Fi & _ & Q). assert (Fi' : exists res, finish_proof b = Ok res) by eauto. apply Fi in Fi' as [L1 L2]. specialize (Q L2).
  unfold builder_new in E. apply obind_ok in E as (q & _ & E). injection E as <- <-.
  assert (Acc : forall t, Forall (fun c : list N * outcome unit (list qbuf) => is_ok (snd c) = true) t -> accepted t = map fst t).
  { intros t At. unfold accepted. f_equal. induction At as [| c t H At IH]; [reflexivity |]. cbn [filter]. rewrite H, IH. reflexivity. }
  assert (LH : length tr = S (length (handed tr))).
  { apply forall2_length in Q. rewrite Acc, map_length in L1 by exact A. rewrite <- Q. unfold needed in L1. rewrite L1. cbn. f_equal. clear. induction keys as [| k ks IH]; [reflexivity |].
    cbn [flat_map]. rewrite !app_length, map_length, IH. reflexivity. }
  assert (LE : forall i, (length (handed (firstn i tr)) <= length (handed tr))%nat).
  { intros i. rewrite <- (firstn_skipn i tr) at 2. rewrite handed_app, app_length. lia. }
  assert (PB' : forall p, In p pos -> (p < S (length (handed tr)))%nat).
  { intros p Hp. apply In_nth_error in Hp as (i & Hi). apply PB in Hi. specialize (LE i). lia. }
  assert (PA : forall p, In p pos <-> (p <= length (handed tr))%nat).
  { intros p. split; [intros Hp; apply PB' in Hp; lia |]. intros Hp. apply (nodup_bound _ (S (length (handed tr)))); auto; lia. }
  assert (P0 : nth_error pos 0 = Some 0%nat).
  { destruct pos as [| p pos]; [cbn in PL; lia |]. assert (H := PB 0%nat p eq_refl). cbn in H. cbn. f_equal. lia. }
  split; [exact P0 |]. split; [exact PA |]. split.
  { intros k Hk t Ht. assert (Sk : Signer (negb dbg) tr k).
    { apply in_flat_map in Hk as (rt & Hrt & Hk). apply in_concat in Hrt as (its & Hits & Hrt).
      assert (X : exists m, In m (map fst tr) /\ Response (negb dbg) m its).
      { clear -R Hits. induction R as [| m i ms is H R IH]; [destruct Hits |]. destruct Hits as [-> | Hits]; [exists m; split; [left; reflexivity | exact H] |]. destruct (IH Hits) as (m' & H1 & H2). exists m'. split; [right; exact H1 | exact H2]. }
      destruct X as (m & Hm & Hr). exists m, its, rt. rewrite Acc by exact A. auto. }
    apply K in Sk. assert (I : In (k, t) (flat_map (fun k => map (pair k) (key_types k)) keys)) by (apply in_flat_map; exists k; split; [exact Sk | apply in_map; exact Ht]).
    revert I. clear -Q. generalize dependent (flat_map (fun k => map (pair k) (key_types k)) keys). intros kts Q I.
    induction Q as [| kt x kts qs Hq Q IH]; [destruct I |]. destruct I as [-> | I]; [exists x; split; [left; reflexivity | exact Hq] |].
    destruct (IH I) as (q' & I' & H'). exists q'. split; [right; exact I' | exact H']. }
  intros i p Hp. assert (Hb := PB _ _ Hp).
  assert (Np : p <> 0%nat). { intros ->. assert (X := proj1 (NoDup_nth_error pos) PN 0%nat (S i)). rewrite P0, Hp in X. assert (0 < length pos)%nat by (rewrite PL, LH; lia). specialize (X H eq_refl). discriminate. }
  destruct p as [| p]; [contradiction |].
  assert (Et : tr = firstn (S i) tr ++ skipn (S i) tr) by (symmetry; apply firstn_skipn).
  assert (Hq : exists x, nth_error (handed (firstn (S i) tr)) p = Some x).
  { destruct (nth_error (handed (firstn (S i) tr)) p) eqn:X; [eauto |]. apply nth_error_None in X. lia. }
  destruct Hq as (x & Hx). assert (Hx' : nth_error (handed tr) p = Some x).
  { rewrite Et, handed_app, nth_error_app1; [exact Hx |]. apply nth_error_Some. congruence. }
  rewrite Et in C. destruct (calls_prefix _ _ _ _ _ C) as (b1 & C1).
  assert (B1 : Forall (fun c : list N * outcome unit (list qbuf) => is_bytes (fst c)) (firstn (S i) tr)) by (rewrite Et in B; apply Forall_app in B; apply B).
  assert (A1 : Forall (fun c : list N * outcome unit (list qbuf) => is_ok (snd c) = true) (firstn (S i) tr)) by (rewrite Et in A; apply Forall_app in A; apply A).
  destruct (handed_signed _ _ _ C1 B1 x (nth_error_In _ _ Hx)) as (k & t & H1 & H2 & (m & its & rt & M & Re & I1 & I2)).
  exists x, k, t. split; [exact Hx' |]. split; [exact H1 |]. split; [exact H2 |].
  rewrite Acc in M by exact A1. apply In_nth_error in M as (j & Hj).
  assert (Lj : (j < length (map fst (firstn (S i) tr)))%nat) by (apply nth_error_Some; congruence). rewrite map_length, firstn_length in Lj.
  assert (Hj' : nth_error (map fst tr) j = Some m).
  { rewrite Et, map_app, nth_error_app1; [exact Hj |]. apply nth_error_Some. congruence. }
  exists j, its, rt. split; [lia |]. split; [| auto].
  clear -R Hj' Re. revert j Hj'. induction R as [| m' i ms is H R IH]; intros [| j] Hj; cbn in *; try discriminate; [| apply IH; exact Hj].
  injection Hj as ->. f_equal. eapply response_unique; eauto.
Qed.
