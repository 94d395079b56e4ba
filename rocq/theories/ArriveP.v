(** Answers in any order: the builder ends up with the same records. *)
From Verif Require Import Base BaseP NameM NameSpec NameP WireM WireSpec RRM SerM RecSpec RecP RecP2 ValSpec ValM HeldP QueryM QuerySpec QBufP QueryP QueryP2 QueryP3 QueryP4 OrderSpec AcceptSpec AcceptP5 LiveSpec LiveP ArriveSpec.
From Coq Require Import Lia Permutation PeanoNat.
Local Open Scope N_scope.

Definition qbytes (kt : list N * N) : list N := match build_query (fst kt) (snd kt) with Ok q => qb_deref q | _ => [] end.
Lemma queries_bytes kts qs : Forall2 query_of kts qs -> map qb_deref qs = map qbytes kts.
Proof. induction 1 as [| kt q kts qs [B _] F IH]; [reflexivity |]. cbn [map]. rewrite IH. assert (E : qbytes kt = qb_deref q) by (unfold qbytes; rewrite B; reflexivity). rewrite E. reflexivity. Qed.

Lemma perm_of_concat {A} (l m : list (list A)) : Permutation l m -> Permutation (concat l) (concat m).
Proof. intros P. apply (Permutation_flat_map (fun x => x)) in P. rewrite !flat_map_concat_map, !map_id in P. exact P. Qed.

Section Arrive.
  Variable dbg : bool.
  Variable answer : list N -> list N.
  Variable q0 : list N.
  Hypothesis HB : forall q, is_bytes (answer q).

  Definition Gives (q : list N) (items : list (RR * N)) : Prop := Response (negb dbg) (answer q) items /\ no_overflow dbg items.
  Lemma gives_unique q i j : Gives q i -> Gives q j -> i = j.
  Proof. intros [A _] [B _]. exact (response_unique _ _ _ _ A B). Qed.

  Record Sinv (t : list (list N)) (b : builder) (w : list (list N)) : Prop := {
    si_items : exists l, Forall2 Gives t l /\ pb_proof b = write_all (concat l) /\ pb_min_ttl b = min_ttl (concat l) (2 ^ 32 - 1);
    si_nodup : NoDup (pb_requested b);
    si_signers : forall k, In k (pb_requested b) <-> exists q items, In q t /\ Gives q items /\ In k (flat_map signer_of items);
    si_made : pb_made b = 1 + cost (pb_requested b);
    si_pending : pb_pending b + len t = pb_made b;
    si_queries : pb_made b <= 10 -> Permutation (t ++ w) (q0 :: map qbytes (flat_map key_queries (pb_requested b))) }.

  Lemma sinv_init : Sinv [] builder_init [q0].
  Proof.
    constructor; cbn.
    - exists []. repeat split; constructor.
    - constructor.
    - intros k. split; [intros [] | intros (q & i & [] & _)].
    - reflexivity.
    - reflexivity.
    - intros _. reflexivity.
  Qed.
  Lemma sinv_step t b w1 q w2 qs b1 : Sinv t b (w1 ++ q :: w2) -> process_response dbg b (answer q) = (Ok qs, b1) -> Sinv (t ++ [q]) b1 (w1 ++ w2 ++ map qb_deref qs).
  Proof.
    intros [(l & F & EP & ET) ND SG MD PD QS] P. apply process_ok in P; [| apply HB]. destruct P as (items & new & qs' & R & NO & Np & -> & ND' & I' & Fq & Eq).
    assert (G : Gives q items) by (split; assumption).
    constructor; cbn [pb_requested pb_proof pb_min_ttl pb_pending pb_made] in *.
    - exists (l ++ [items]). split; [apply Forall2_app; [exact F | constructor; [exact G | constructor]] |]. rewrite concat_app. cbn [concat]. rewrite app_nil_r, write_all_app, EP. split; [reflexivity |].
      rewrite min_ttl_app, ET. pose proof (min_ttl_le (concat l) (2 ^ 32 - 1)) as Le. replace (min_ttl (concat l) (2 ^ 32 - 1)) with (N.min (min_ttl (concat l) (2 ^ 32 - 1)) (2 ^ 32 - 1)) at 2 by lia. rewrite min_ttl_min. reflexivity.
    - apply ND'. exact ND.
    - intros k. rewrite I', SG. split.
      + intros [(x & i & I & Gx & K) | K]; [exists x, i; split; [apply in_or_app; auto | auto] | exists q, items; split; [apply in_or_app; right; left; reflexivity | auto]].
      + intros (x & i & I & Gx & K). apply in_app_or in I as [I | [<- | []]]; [left; exists x, i; auto | right; rewrite (gives_unique _ _ _ G Gx); exact K].
    - rewrite cost_app. lia.
    - rewrite len_app. change (len [q]) with 1. lia.
    - intros L. rewrite Eq. replace (_ <=? 10) with true by (symmetry; apply N.leb_le; lia). rewrite (queries_bytes _ _ Fq), flat_map_app, map_app.
      rewrite app_comm_cons. rewrite <- QS by lia. rewrite <- !app_assoc. apply Permutation_app_head. change (q :: w2 ++ map qbytes (flat_map key_queries new)) with ((q :: w2) ++ map qbytes (flat_map key_queries new)). cbn [app]. rewrite (app_assoc w1 w2), (app_comm_cons (w1 ++ w2)), (app_comm_cons w2), (app_assoc w1 (q :: w2)). apply Permutation_app_tail. apply Permutation_middle.
  Qed.
  Lemma sinv_run b w order b' w' : Arrive dbg answer b w order b' w' -> forall t, Sinv t b w -> Sinv (t ++ order) b' w'.
  Proof.
    induction 1 as [b w | b w1 q w2 qs b1 order b2 w P A IH]; intros t S; [rewrite app_nil_r; exact S |]. change (q :: order) with ([q] ++ order). rewrite app_assoc. apply IH. eapply sinv_step; eauto.
  Qed.

  (** A run which ended with all answered, within the budget: nothing else is ever asked. *)
  Section Closed.
    Variable t1 : list (list N).
    Variable b1 : builder.
    Hypothesis S1 : Sinv t1 b1 [].
    Hypothesis M1 : pb_made b1 <= 10.

    Lemma first_in : In q0 t1.
    Proof. pose proof (si_queries _ _ _ S1 M1) as P. rewrite app_nil_r in P. apply (Permutation_in q0 (Permutation_sym P)). left. reflexivity. Qed.
    Lemma keys_in k kt : In k (pb_requested b1) -> In kt (key_queries k) -> In (qbytes kt) t1.
    Proof. intros I J. pose proof (si_queries _ _ _ S1 M1) as P. rewrite app_nil_r in P. apply (Permutation_in _ (Permutation_sym P)). right. apply in_map. apply in_flat_map. eauto. Qed.
    Lemma req_incl t b w : Sinv t b w -> incl t t1 -> incl (pb_requested b) (pb_requested b1).
    Proof. intros S I k K. apply (si_signers _ _ _ S) in K as (q & items & Iq & G & K). apply (si_signers _ _ _ S1). exists q, items. auto. Qed.
    Lemma budget t b w : Sinv t b w -> incl t t1 -> pb_made b <= 10.
    Proof. intros S I. pose proof (cost_incl _ _ (si_nodup _ _ _ S) (req_incl _ _ _ S I)). rewrite (si_made _ _ _ S). rewrite (si_made _ _ _ S1) in M1. lia. Qed.
    Lemma all_in t b w : Sinv t b w -> incl t t1 -> incl (t ++ w) t1.
    Proof.
      intros S I x Hx. apply (Permutation_in _ (si_queries _ _ _ S (budget _ _ _ S I))) in Hx as [<- | Hx]; [apply first_in |]. apply in_map_iff in Hx as (kt & <- & J). apply in_flat_map in J as (k & Ik & J). apply (keys_in k); [| exact J]. exact (req_incl _ _ _ S I k Ik).
    Qed.
    Lemma run_incl b w order b' w' : Arrive dbg answer b w order b' w' -> forall t, Sinv t b w -> incl t t1 -> incl ((t ++ order) ++ w') t1.
    Proof.
      induction 1 as [b w | b v1 q v2 qs b2 order b3 w P A IH]; intros t S I; [rewrite app_nil_r; eapply all_in; eauto |]. change (q :: order) with ([q] ++ order). rewrite (app_assoc t). apply IH; [eapply sinv_step; eauto |].
      intros x Hx. apply (all_in _ _ _ S I). apply in_app_or in Hx as [Hx | [<- | []]]; rewrite !in_app_iff; cbn [In]; auto.
    Qed.
    Lemma progress t b w1 q w2 : Sinv t b (w1 ++ q :: w2) -> incl t t1 -> exists qs b', process_response dbg b (answer q) = (Ok qs, b').
    Proof.
      intros S I. assert (Iq : In q t1) by (apply (all_in _ _ _ S I); rewrite !in_app_iff; cbn [In]; auto).
      destruct (si_items _ _ _ S1) as (l & F & _). assert (G : exists items, Gives q items). { clear - F Iq. induction F as [| x i xs l G F IH]; [destruct Iq |]. destruct Iq as [<- | Iq]; eauto. } destruct G as (items & R & NO).
      assert (NP : pb_pending b <> 0).
      { pose proof (si_queries _ _ _ S (budget _ _ _ S I)) as P. apply Permutation_length in P. rewrite !app_length in P. cbn [length] in P. rewrite map_length, key_queries_length in P. pose proof (si_made _ _ _ S) as M. pose proof (si_pending _ _ _ S) as PD. unfold cost, len in *. lia. }
      assert (AC : exists qs, fst (process_response dbg b (answer q)) = Ok qs).
      { unfold process_response. destruct (N.eqb_spec (pb_pending b) 0) as [| _]; [contradiction |]. pose proof (handle_complete dbg (answer q) items (pb_proof b) [] (proj1 (is_bytes_ok _) (HB q)) R NO) as H. rewrite H.
        assert (V : Forall valid_name (dedup (sort_by bytes_cmp ([] ++ flat_map signer_of items)))).
        { apply Forall_forall. intros k K. apply (proj1 (in_dedup_sort _ k)) in K. apply in_flat_map in K as ([r u] & K & J). destruct (response_held _ _ _ R (HB q)) as [FH _]. rewrite Forall_forall in FH. apply FH in K as [K _]. cbn [fst] in K. destruct r; try (destruct J; fail). destruct J as [<- | []]. unfold Held in K. cbn [typed_rr] in K. unfold valid_name. tauto. }
        match goal with |- context [request_keys ?n ?b1 ?q] => destruct (request_keys_spec n b1 q V) as (new & qs' & E & _) end. rewrite E. eexists. reflexivity. }
      destruct AC as [qs AC]. destruct (process_response dbg b (answer q)) as [r b']. cbn [fst] in AC. subst r. eauto.
    Qed.
    Lemma goes_on n : forall t b w, Sinv t b w -> incl t t1 -> (10 <= n + length t)%nat -> exists order b', Arrive dbg answer b w order b' [].
    Proof.
      induction n as [| n IH]; intros t b w S I L.
      - destruct w as [| q w]; [exists [], b; constructor |]. exfalso. pose proof (budget _ _ _ S I) as M. pose proof (si_queries _ _ _ S M) as P. apply Permutation_length in P. rewrite app_length in P. cbn [length] in P. rewrite map_length, key_queries_length in P. pose proof (si_made _ _ _ S). unfold cost in *. lia.
      - destruct w as [| q w]; [exists [], b; constructor |]. destruct (progress t b [] q w S I) as (qs & b' & P). pose proof (sinv_step _ _ [] _ _ _ _ S P) as S'. destruct (IH (t ++ [q]) b' ([] ++ w ++ map qb_deref qs) S') as (order & b2 & A).
        + intros x Hx. apply (all_in _ _ _ S I). apply in_app_or in Hx as [Hx | [<- | []]]; rewrite !in_app_iff; cbn [In]; auto.
        + rewrite app_length. cbn [length]. lia.
        + exists (q :: order), b2. apply (Arrive_one dbg answer b [] q w qs b'); assumption.
    Qed.
  End Closed.

  Lemma forall2_perm {A B} (R : A -> B -> Prop) : forall x y, Permutation x y -> forall l, Forall2 R x l -> exists m, Forall2 R y m /\ Permutation l m.
  Proof.
    induction 1 as [| a x y P IH | a b x | x y z P IH P' IH']; intros l F.
    - inversion F; subst. exists []. split; constructor.
    - inversion F as [| ? i ? l' G F']; subst. destruct (IH _ F') as (m & F2 & P2). exists (i :: m). split; constructor; assumption.
    - inversion F as [| ? i ? l' G F']; subst. inversion F' as [| ? j ? l2 G' F2]; subst. exists (j :: i :: l2). split; [constructor; [| constructor]; assumption | apply perm_swap].
    - destruct (IH _ F) as (m & F2 & P2). destruct (IH' _ F2) as (m2 & F3 & P3). exists m2. split; [exact F3 | eapply Permutation_trans; eauto].
  Qed.
  Lemma gives_lists t : forall l m, Forall2 Gives t l -> Forall2 Gives t m -> l = m.
  Proof. induction t as [| q t IH]; intros l m F G; inversion F; inversion G; subst; [reflexivity |]. f_equal; [eapply gives_unique; eauto | eapply IH; eauto]. Qed.
  Lemma min_ttl_perm l m a : Permutation l m -> min_ttl l a = min_ttl m a.
  Proof.
    intros P. unfold min_ttl. apply (Permutation_map snd) in P. revert a. induction P as [| x l' m' P IH | x y l' | l' m' n P IH P' IH']; intros a; cbn [fold_left]; [reflexivity | apply IH | | rewrite IH; apply IH'].
    f_equal. lia.
  Qed.
  Lemma same_order t1 b1 t2 b2 : Sinv t1 b1 [] -> pb_made b1 <= 10 -> Sinv t2 b2 [] -> incl t2 t1 -> incl t1 t2 ->
    Permutation t1 t2 /\ pb_pending b2 = 0 /\ pb_made b2 <= 10 /\ pb_min_ttl b1 = pb_min_ttl b2 /\
    exists i1 i2, Brings dbg answer t1 i1 /\ Brings dbg answer t2 i2 /\ Permutation i1 i2 /\ pb_proof b1 = write_all i1 /\ pb_proof b2 = write_all i2.
  Proof.
    intros S1 M1 S2 I2 I1. pose proof (budget _ _ S1 M1 _ _ _ S2 I2) as M2.
    assert (PR : Permutation (pb_requested b1) (pb_requested b2)).
    { apply NoDup_Permutation; [apply S1 | apply S2 |]. intros k. split; [apply (req_incl _ _ S2 _ _ _ S1 I1) | apply (req_incl _ _ S1 _ _ _ S2 I2)]. }
    assert (PT : Permutation t1 t2).
    { pose proof (si_queries _ _ _ S1 M1) as P1. pose proof (si_queries _ _ _ S2 M2) as P2. rewrite app_nil_r in P1, P2. rewrite P1, P2. constructor. apply Permutation_map. apply Permutation_flat_map. exact PR. }
    split; [exact PT |]. split.
    { pose proof (si_queries _ _ _ S2 M2) as P. apply Permutation_length in P. rewrite app_nil_r in P. cbn [length] in P. rewrite map_length, key_queries_length in P. pose proof (si_made _ _ _ S2) as M. pose proof (si_pending _ _ _ S2) as PD. unfold cost, len in *. lia. }
    split; [exact M2 |]. destruct (si_items _ _ _ S1) as (l1 & F1 & EP1 & ET1). destruct (si_items _ _ _ S2) as (l2 & F2 & EP2 & ET2).
    destruct (forall2_perm Gives _ _ PT _ F1) as (m & F3 & P3). rewrite (gives_lists _ _ _ F3 F2) in P3. apply perm_of_concat in P3.
    split; [rewrite ET1, ET2; apply min_ttl_perm; exact P3 |]. exists (concat l1), (concat l2). split; [exists l1; split; [| reflexivity]; clear - F1; induction F1 as [| ? ? ? ? [G _] F IH]; constructor; assumption |].
    split; [exists l2; split; [| reflexivity]; clear - F2; induction F2 as [| ? ? ? ? [G _] F IH]; constructor; assumption |]. split; [exact P3 |]. split; assumption.
  Qed.
End Arrive.
