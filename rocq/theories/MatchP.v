(** Responses are not matched to queries. *)
From Verif Require Import Base BaseP NameM NameSpec NameP WireM WireSpec RRM SerM RecSpec RecP RecP2 ValSpec ValM HeldP QueryM QuerySpec QBufP QueryP QueryP2 QueryP3 QueryP4 ArriveSpec ArriveP ArriveP2 MatchSpec.
From Coq Require Import Lia Permutation PeanoNat.
Local Open Scope N_scope.

(** Only the records matter. *)
Lemma records_only dbg b m m' items qs b' : is_bytes m -> is_bytes m' -> Response (negb dbg) m items -> Response (negb dbg) m' items ->
  process_response dbg b m = (Ok qs, b') -> process_response dbg b m' = (Ok qs, b').
Proof.
  intros B B' R R' H. pose proof H as H0. apply process_ok in H0 as (i & new & qs' & R0 & NO & NZ & _); [| exact B]. rewrite (response_unique _ _ _ _ R0 R) in NO.
  unfold process_response in *. destruct (N.eqb_spec (pb_pending b) 0) as [| _]; [contradiction |].
  rewrite (handle_complete dbg m items _ _ (proj1 (is_bytes_ok _) B) R NO) in H. rewrite (handle_complete dbg m' items _ _ (proj1 (is_bytes_ok _) B') R' NO). exact H.
Qed.

Lemma forall2_in {A B} (R : A -> B -> Prop) l m x : Forall2 R l m -> In x l -> exists y, In y m /\ R x y.
Proof. induction 1 as [| a b l m H F IH]; intros I; [destruct I |]. destruct I as [-> | I]; [exists b; split; [left; reflexivity | exact H] |]. destruct (IH I) as (y & J & K). exists y. split; [right; exact J | exact K]. Qed.
Lemma min_ttl_in l t x : In x (map snd l) -> min_ttl l t <= x.
Proof.
  unfold min_ttl. revert t. induction (map snd l) as [| a r IH]; intros t I; [destruct I |]. cbn [fold_left]. destruct I as [-> | I]; [| apply IH; exact I].
  clear IH. assert (G : forall r u, fold_left N.min r u <= u). { clear. induction r as [| a r IH]; intros u; cbn [fold_left]; [lia |]. specialize (IH (N.min u a)). lia. } specialize (G r (N.min t x)). lia.
Qed.
Lemma min_ttl_glb l t u : u <= t -> (forall x, In x (map snd l) -> u <= x) -> u <= min_ttl l t.
Proof.
  unfold min_ttl. revert t. induction (map snd l) as [| a r IH]; intros t H F; [exact H |]. cbn [fold_left]. apply IH; [specialize (F a (or_introl eq_refl)); lia |]. intros x I. apply F. right. exact I.
Qed.

(** An accepted response given again. *)
Lemma given_again dbg n ty b0 q0 tr b m : builder_new n ty = Ok (b0, q0) -> Calls dbg b0 tr b -> Forall (fun c => is_bytes (fst c)) tr -> In m (accepted tr) -> pb_pending b <> 0 ->
  exists items, Response (negb dbg) m items /\ process_response dbg b m =
    (Ok [], {| pb_proof := pb_proof b ++ write_all items; pb_min_ttl := pb_min_ttl b; pb_requested := pb_requested b; pb_pending := pb_pending b - 1; pb_made := pb_made b |}).
Proof.
  intros E C B I NZ. apply new_init in E as ->. pose proof (calls_inv _ _ _ C B) as V. destruct (inv_items _ _ _ V) as (its & F & H & NO & T & _).
  destruct (forall2_in _ _ _ _ F I) as (items & J & R). exists items. split; [exact R |].
  assert (Bm : is_bytes m). { unfold accepted in I. apply in_map_iff in I as (c & <- & I). apply filter_In in I as [I _]. rewrite Forall_forall in B. exact (B c I). }
  assert (SUB : incl items (concat its)) by (intros x Hx; apply in_concat; exists items; auto).
  assert (NOi : no_overflow dbg items). { intros D. specialize (NO D). apply Forall_forall. intros x Hx. rewrite Forall_forall in NO. apply NO, SUB, Hx. }
  assert (ok : exists qs b', process_response dbg b m = (Ok qs, b')).
  { unfold process_response. destruct (N.eqb_spec (pb_pending b) 0) as [| _]; [contradiction |]. rewrite (handle_complete dbg m items _ _ (proj1 (is_bytes_ok _) Bm) R NOi).
    match goal with |- context [request_keys ?l ?x ?q] => assert (VN : Forall valid_name l); [| destruct (request_keys_spec l x q VN) as (new & qs' & -> & _)]; [| eexists; eexists; reflexivity] end.
    apply Forall_forall. intros k K. cbn [app] in K. apply (proj1 (in_dedup_sort _ k)) in K. apply in_flat_map in K as ([r t] & K & K2).
    destruct (response_held _ _ _ R Bm) as [FH _]. rewrite Forall_forall in FH. apply FH in K as [K _]. cbn [fst] in K.
    destruct r; try (destruct K2; fail). cbn in K2. destruct K2 as [<- | []]. unfold Held in K. cbn [typed_rr] in K. unfold valid_name. tauto. }
  destruct ok as (qs & b' & P). rewrite P. pose proof P as P0. apply process_ok in P0 as (i & new & qs' & R0 & _ & _ & -> & ND & IN & FQ & Q); [| exact Bm]. rewrite (response_unique _ _ _ _ R0 R) in *.
  assert (new = []).
  { destruct new as [| k new]; [reflexivity |]. exfalso. specialize (ND (inv_nodup _ _ _ V)). apply NoDup_remove_2 in ND. apply ND. apply in_or_app. left.
    destruct (proj1 (IN k) ltac:(apply in_or_app; right; left; reflexivity)) as [K | K]; [exact K |]. apply (inv_signers _ _ _ V). apply in_flat_map in K as (rt & K1 & K2). exists m, items, rt. auto. }
  subst new. cbn [flat_map] in FQ. apply forall2_length in FQ. destruct qs'; [| discriminate FQ].
  assert (QE : qs = []) by (rewrite Q; match goal with |- (if ?c then _ else _) = _ => destruct c end; reflexivity). rewrite QE.
  rewrite app_nil_r. change (cost []) with 0. rewrite !N.add_0_r. repeat f_equal. rewrite T. apply N.min_l. apply min_ttl_glb; [apply min_ttl_le |]. intros x Hx. apply min_ttl_in. apply in_map_iff in Hx as (y & <- & Hy). apply in_map, SUB, Hy.
Qed.

(** The order in which messages are given. *)
Lemma signer_perm lax tr tr' k : Permutation (accepted tr) (accepted tr') -> Signer lax tr k -> Signer lax tr' k.
Proof. intros P (m & items & rt & A & X). exists m, items, rt. split; [eapply Permutation_in; [exact P | exact A] | exact X]. Qed.
Lemma cost_perm a b : Permutation a b -> cost a = cost b.
Proof. intros P. unfold cost. f_equal. apply Permutation_length, Permutation_flat_map. exact P. Qed.
Lemma all_accepted tr : Forall (fun c => is_ok (snd c) = true) tr -> accepted tr = map fst tr.
Proof. unfold accepted. induction 1 as [| c tr H F IH]; [reflexivity |]. cbn [filter map]. rewrite H. cbn [map]. rewrite IH. reflexivity. Qed.
Lemma permuted dbg n ty b0 q0 tr b tr' b' : builder_new n ty = Ok (b0, q0) -> Calls dbg b0 tr b -> Calls dbg b0 tr' b' ->
  Forall (fun c => is_bytes (fst c)) tr -> Forall (fun c => is_ok (snd c) = true) tr -> Forall (fun c => is_ok (snd c) = true) tr' -> Permutation (map fst tr) (map fst tr') ->
  awaiting_responses b = awaiting_responses b' /\
  forall p ttl, finish_proof b = Ok (p, ttl) -> Permutation (map qb_deref (handed tr)) (map qb_deref (handed tr')) /\
    exists p' items items', finish_proof b' = Ok (p', ttl) /\ Permutation items items' /\ p = write_all items /\ p' = write_all items'.
Proof.
  intros E C C' B A A' P. apply new_init in E as ->. rewrite <- (all_accepted _ A), <- (all_accepted _ A') in P.
  assert (B' : Forall (fun c => is_bytes (fst c)) tr').
  { rewrite (all_accepted _ A), (all_accepted _ A') in P. apply Forall_forall. intros c Hc. assert (I : In (fst c) (map fst tr)) by (eapply Permutation_in; [apply Permutation_sym; exact P | apply in_map; exact Hc]).
    apply in_map_iff in I as (d & <- & I). rewrite Forall_forall in B. exact (B d I). }
  pose proof (calls_inv _ _ _ C B) as V. pose proof (calls_inv _ _ _ C' B') as V'.
  assert (PR : Permutation (pb_requested b) (pb_requested b')).
  { apply NoDup_Permutation; [apply V | apply V' |]. intros k. rewrite (inv_signers _ _ _ V), (inv_signers _ _ _ V'). split; apply signer_perm; [exact P | apply Permutation_sym; exact P]. }
  pose proof (inv_made _ _ _ V) as M. pose proof (inv_made _ _ _ V') as M'. rewrite <- (cost_perm _ _ PR) in M'. pose proof (inv_pending _ _ _ V) as N. pose proof (inv_pending _ _ _ V') as N'.
  assert (L : len (accepted tr) = len (accepted tr')) by (unfold len; rewrite (Permutation_length P); reflexivity).
  assert (EM : pb_made b = pb_made b') by congruence. assert (EP : pb_pending b = pb_pending b') by lia. split; [unfold awaiting_responses; rewrite EM, EP; reflexivity |].
  intros p ttl F. apply finish_inv in F as (P0 & ML & -> & ->). split.
  - pose proof (inv_queries _ _ _ V ML) as Q. pose proof (inv_queries _ _ _ V' ltac:(lia)) as Q'. rewrite (queries_bytes _ _ Q), (queries_bytes _ _ Q'). apply Permutation_map, Permutation_flat_map. exact PR.
  - destruct (inv_items _ _ _ V) as (its & FI & _ & _ & T & W). destruct (inv_items _ _ _ V') as (its' & FI' & _ & _ & T' & W'). destruct (Permutation_Forall2 P FI) as (its2 & P2 & F2).
    rewrite <- (responses_unique _ _ _ FI' _ F2) in P2. apply perm_of_concat in P2. exists (pb_proof b'), (concat its), (concat its').
    split; [rewrite finish_ok by lia; rewrite T, T', (min_ttl_perm _ _ _ P2); reflexivity |]. split; [exact P2 |]. split; [apply W; exact A | apply W'; exact A'].
Qed.
