(** The WASM proof builder (C53, C58). *)
From Verif Require Import Base BaseP NameSpec NameM NameP WireM WireSpec RRM SerM RecSpec ValSpec ValM QueryM QuerySpec QBufP QueryP QueryP2 QueryP3 QueryP4 WasmM WasmSpec.
From Coq Require Import Lia.
Local Open Scope N_scope.

Lemma given_snoc evs e : given (evs ++ [e]) = given evs ++ given [e].
Proof. apply flat_map_app. Qed.
Lemma taken_snoc evs e : taken (evs ++ [e]) = taken evs ++ taken [e].
Proof. apply flat_map_app. Qed.
Lemma short_app l a b : short l (a ++ b) = short l a ++ short l b.
Proof. apply filter_app. Qed.

(** The state of a session in terms of calls of the library. *)
Lemma session_calls dbg w0 evs w : Session dbg w0 evs w ->
  exists tr, Calls dbg (w_builder w0) tr (w_builder w) /\ map fst tr = short 65535 (given evs) /\
    taken evs ++ map into_vec (w_queue w) = map into_vec (w_queue w0 ++ handed tr).
Proof.
  induction 1 as [w | w evs w1 m w2 S (tr & C & G & T) P | w evs w1 q w2 S (tr & C & G & T) P].
  - exists []. split; [constructor |]. split; [reflexivity |]. cbn. rewrite app_nil_r. reflexivity.
  - rewrite given_snoc, taken_snoc, short_app, app_nil_r. cbn [given flat_map app short filter].
    unfold process_query_response in P. change (len m) with (N.of_nat (length m)) in P. destruct (N.ltb_spec (N.of_nat (length m)) 65535) as [L | L].
    + assert (A : as_u16 (N.of_nat (length m)) = len m) by (unfold as_u16, len; apply N.mod_small; lia). rewrite A, buffer_fill in P by (unfold len; lia || reflexivity).
      destruct (process_response dbg (w_builder w1) m) as [r b] eqn:R. exists (tr ++ [(m, r)]).
      assert (NP : r <> Panic /\ r <> Loop) by (destruct r; try discriminate; split; discriminate). destruct NP as [N1 N2].
      assert (W : w_builder w2 = b) by (destruct r; try discriminate; injection P as <-; reflexivity).
      split; [rewrite W; econstructor; eassumption |]. split; [rewrite map_app, G; reflexivity |].
      rewrite handed_snoc, app_assoc, map_app, <- T. destruct r as [qs | | |]; try discriminate; injection P as <-; cbn [w_queue].
      * rewrite map_app, app_assoc. reflexivity.
      * rewrite app_nil_r. reflexivity.
    + injection P as <-. exists tr. rewrite app_nil_r. auto.
  - exists tr. rewrite given_snoc, taken_snoc, short_app, app_nil_r. cbn [taken flat_map given]. unfold get_next_query in P.
    destruct (w_queue w1) as [| x l] eqn:Q; injection P as <- <-.
    + rewrite Q. rewrite app_nil_r. auto.
    + cbn [w_builder w_queue]. split; [exact C |]. split; [exact G |]. rewrite app_nil_r, <- app_assoc. exact T.
Qed.
Lemma session_split dbg w0 evs w : Session dbg w0 evs w -> forall e1 e e2, evs = e1 ++ e :: e2 ->
  exists w1 w2, Session dbg w0 e1 w1 /\ match e with Gave m => process_query_response dbg w1 m = Ok w2 | Took q => get_next_query w1 = (q, w2) end.
Proof.
  induction 1 as [w | w evs w1 m w2 S IH P | w evs w1 q w2 S IH P]; intros e1 e e2 E; [destruct e1; discriminate | |];
  (destruct (exists_last (l := e :: e2) ltac:(discriminate)) as (l & x & L); rewrite L, app_assoc in E; apply app_inj_tail in E as [E <-];
   destruct l as [| y l]; cbn [app] in L; injection L as ? ?; subst; [rewrite app_nil_r in *; eauto | eauto]).
Qed.

Lemma completed_eq nm : (if ends_with nm [dot] then nm else nm ++ [dot]) = completed nm.
Proof.
  unfold completed. destruct (ends_with nm [dot]) eqn:E; destruct (N.eq_dec (last nm 0) 46) as [L | L]; try reflexivity; exfalso.
  - apply ends_with_spec in E as (p & ->). apply L. rewrite last_last. reflexivity.
  - destruct nm as [| c nm]; [discriminate |]. destruct (exists_last (l := c :: nm) ltac:(discriminate)) as (p & x & Q). rewrite Q in *. rewrite last_last in L. subst.
    enough (ends_with (p ++ [46]) [dot] = true) by congruence. apply ends_with_spec. eauto.
Qed.
Lemma init_inv nm ty w : ty < 65536 -> init_proof_builder nm ty = Ok (Some w) ->
  exists n q, name_try_from (completed nm) = Some n /\ builder_new n ty = Ok (builder_init, q) /\ w = {| w_builder := builder_init; w_queue := [q] |}.
Proof.
  intros T H. unfold init_proof_builder in H. rewrite completed_eq in H.
  destruct (name_try_from (completed nm)) as [n |] eqn:E; [| discriminate]. unfold builder_new in *. destruct (build_query n ty) as [q | | |] eqn:B; try discriminate.
  cbn in H. injection H as <-. exists n, q. rewrite B. auto.
Qed.
Lemma bytes_fed dbg b tr b' ms : Calls dbg b tr b' -> map fst tr = short 65535 ms -> Forall is_bytes ms -> Forall (fun c => is_bytes (fst c)) tr.
Proof.
  intros _ E F. rewrite Forall_forall in *. intros c I. apply F. assert (J : In (fst c) (short 65535 ms)) by (rewrite <- E; apply in_map, I).
  apply filter_In in J. apply J.
Qed.
Lemma map_vec qs : map into_vec qs = map qb_deref qs.
Proof. reflexivity. Qed.

Lemma wasm_fifo dbg nm ty w0 evs w : ty < 65536 -> init_proof_builder nm ty = Ok (Some w0) -> Session dbg w0 evs w -> Forall is_bytes (given evs) ->
  exists n b0 q0 tr, name_try_from (completed nm) = Some n /\ builder_new n ty = Ok (b0, q0) /\
    Calls dbg b0 tr (w_builder w) /\ map fst tr = short 65535 (given evs) /\
    taken evs ++ map qb_deref (w_queue w) = map qb_deref (q0 :: handed tr) /\ (length (taken evs) <= 10)%nat.
Proof.
  intros T I S B. destruct (init_inv _ _ _ T I) as (n & q & NN & BN & ->). destruct (session_calls _ _ _ _ S) as (tr & C & G & Q). cbn [w_builder w_queue] in *.
  exists n, builder_init, q, tr. rewrite !map_vec in Q. repeat (split; [assumption |]).
  pose proof (handed_bound _ _ _ _ _ _ _ BN C (bytes_fed _ _ _ _ _ C G B)) as HB. apply (f_equal (@length _)) in Q. rewrite app_length, !map_length in Q. cbn [app] in Q. lia.
Qed.
Lemma wasm_none dbg nm ty w0 e1 e2 w : ty < 65536 -> init_proof_builder nm ty = Ok (Some w0) -> Session dbg w0 (e1 ++ Took None :: e2) w ->
  exists n b0 q0 tr b, name_try_from (completed nm) = Some n /\ builder_new n ty = Ok (b0, q0) /\
    Calls dbg b0 tr b /\ map fst tr = short 65535 (given e1) /\ taken e1 = map qb_deref (q0 :: handed tr).
Proof.
  intros T I S. destruct (init_inv _ _ _ T I) as (n & q & NN & BN & ->). destruct (session_split _ _ _ _ S _ _ _ eq_refl) as (w1 & w2 & S1 & P).
  destruct (session_calls _ _ _ _ S1) as (tr & C & G & Q). cbn [w_builder w_queue] in *. exists n, builder_init, q, tr, (w_builder w1). repeat (split; [assumption |]).
  unfold get_next_query in P. destruct (w_queue w1); [| discriminate]. rewrite app_nil_r in Q. exact Q.
Qed.

(** The proof of a session is the library's for the same responses. *)
Lemma calls_det dbg b tr b1 : Calls dbg b tr b1 -> forall tr' b2, Calls dbg b tr' b2 -> map fst tr = map fst tr' -> tr = tr' /\ b1 = b2.
Proof.
  induction 1 as [b | b tr b1 m r b2 C IH P N1 N2]; intros tr' b3 C' E.
  - inversion C'; subst; [auto |]. rewrite map_app in E. destruct (map fst tr); discriminate.
  - inversion C' as [| ? tr1 b1' m' r' ? C1 P' N1' N2']; subst; [rewrite map_app in E; destruct (map fst tr); discriminate |].
    rewrite !map_app in E. apply app_inj_tail in E as [E EM]. cbn in EM. subst. destruct (IH _ _ C1 E) as [-> ->]. rewrite P in P'. injection P' as -> ->. auto.
Qed.
Lemma wasm_proof dbg nm ty w0 evs w n b0 q0 tr b : ty < 65536 -> init_proof_builder nm ty = Ok (Some w0) -> Session dbg w0 evs w ->
  name_try_from (completed nm) = Some n -> builder_new n ty = Ok (b0, q0) -> Calls dbg b0 tr b -> map fst tr = short 65535 (given evs) ->
  forall p, get_unverified_proof w = Some p <-> exists ttl, finish_proof b = Ok (p, ttl).
Proof.
  intros T I S NN' BN' C' G' p. destruct (init_inv _ _ _ T I) as (n' & q & NN & BN & ->). destruct (session_calls _ _ _ _ S) as (tr' & C & G & Q). cbn [w_builder w_queue] in *.
  rewrite NN in NN'. injection NN' as ->. rewrite BN in BN'. injection BN' as <- <-. rewrite <- G in G'. destruct (calls_det _ _ _ _ C' _ _ C G') as [-> ->].
  unfold get_unverified_proof. destruct (finish_proof (w_builder w)) as [[p' t] | | |]; split.
  all: try discriminate; try (intros (t' & E); discriminate).
  - intros E. injection E as ->. eauto.
  - intros (t' & E). injection E as -> ->. reflexivity.
Qed.
Lemma init_total nm ty : ty < 65536 -> exists r, init_proof_builder nm ty = Ok r.
Proof.
  intros T. unfold init_proof_builder. rewrite completed_eq. destruct (name_try_from (completed nm)) as [n |] eqn:E; [| eauto].
  destruct (build_query_spec n ty) as (q & Q & _); [| exact T |].
  - exact (name_reparse _ _ E).
  - unfold builder_new. rewrite Q. cbn. eauto.
Qed.
