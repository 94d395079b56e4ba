(** The builder's driver against a resolver which answers. *)
From Verif Require Import Base BaseP NameM NameSpec NameP WireM WireSpec RRM SerM RecSpec RecP RecP2 ValSpec ValM HeldP QueryM QuerySpec QBufP QueryP QueryP2 QueryP3 QueryP4 AcceptSpec LiveSpec.
From Coq Require Import Lia Permutation PeanoNat.
Local Open Scope N_scope.

Lemma incl_rest {A} (l m : list A) : NoDup l -> incl l m -> exists r, Permutation m (l ++ r).
Proof.
  revert m. induction l as [|x l IH]; intros m ND I; [exists m; reflexivity|].
  inversion ND as [|? ? N1 N2]; subst. destruct (in_split x m) as (a & b & ->); [apply I; left; reflexivity|].
  destruct (IH (a ++ b) N2) as (r & P).
  - intros y Hy. assert (J : In y (a ++ x :: b)) by (apply I; right; exact Hy). apply in_app_iff in J as [J|[<-|J]]; [apply in_app_iff; auto|contradiction|apply in_app_iff; auto].
  - exists r. cbn [app]. rewrite <- Permutation_middle. constructor. exact P.
Qed.
Lemma cost_perm a b : Permutation a b -> cost a = cost b.
Proof. intros P. unfold cost. f_equal. apply Permutation_length. apply Permutation_flat_map. exact P. Qed.
Lemma cost_incl l m : NoDup l -> incl l m -> cost l <= cost m.
Proof. intros ND I. destruct (incl_rest l m ND I) as (r & P). rewrite (cost_perm _ _ P), cost_app. lia. Qed.
Lemma skipn_nth {A} i (l : list A) : (i < length l)%nat -> exists x, nth_error l i = Some x /\ skipn i l = x :: skipn (S i) l.
Proof.
  revert l. induction i as [|i IH]; intros [|y l] H; cbn [length] in H; try lia; [exists y; auto|].
  destruct (IH l) as (x & E & S'); [lia|]. exists x. auto.
Qed.
Lemma skipn_app1 {A} i (a b : list A) : (i <= length a)%nat -> skipn i (a ++ b) = skipn i a ++ b.
Proof. intros H. rewrite skipn_app. replace (i - length a)%nat with 0%nat by lia. reflexivity. Qed.
Lemma firstn_S {A} i (l : list A) x : nth_error l i = Some x -> firstn (S i) l = firstn i l ++ [x].
Proof. revert l. induction i as [|i IH]; intros [|y l] H; try discriminate; cbn in *; [congruence|]. rewrite <- IH by exact H. reflexivity. Qed.

Section Live.
  Variable data : list N -> N -> list (RR * N).
  Variable dbg : bool.
  Variable n0 : list N.
  Variable t0 : N.
  Variable resp : list N -> N -> list N.
  Variable keys : list (list N).
  Hypothesis HA : Answers data dbg n0 t0 resp.
  Hypothesis HK : AllSigners data n0 t0 keys.
  Hypothesis HN : (needed keys <= 10)%nat.

  Definition qof (R : list (list N)) : list (list N * N) := (n0, t0) :: flat_map key_queries R.
  Definition dataq (q : list N * N) := data (fst q) (snd q).
  Definition respq (q : list N * N) := resp (fst q) (snd q).

  Record Linv (R : list (list N)) (i : nat) (b : builder) : Prop := {
    li_req : pb_requested b = R;
    li_nodup : NoDup R;
    li_in : forall k, In k R -> exists n t, Asked data n0 t0 n t /\ SignsFor data n t k;
    li_le : (i <= length (qof R))%nat;
    li_made : pb_made b = N.of_nat (length (qof R));
    li_pending : pb_pending b = N.of_nat (length (qof R) - i);
    li_done : forall q k, In q (firstn i (qof R)) -> In k (flat_map signer_of (dataq q)) -> In k R;
    li_proof : pb_proof b = write_all (flat_map dataq (firstn i (qof R)));
    li_ttl : pb_min_ttl b = min_ttl (flat_map dataq (firstn i (qof R))) (2 ^ 32 - 1) }.

  Lemma qof_app R S : qof (R ++ S) = qof R ++ flat_map key_queries S.
  Proof. unfold qof. rewrite flat_map_app. reflexivity. Qed.
  Lemma qof_len R : N.of_nat (length (qof R)) = 1 + cost R.
  Proof. unfold qof, cost. cbn [length]. rewrite key_queries_length. lia. Qed.
  Lemma linv_init : Linv [] 0 builder_init.
  Proof. constructor; try reflexivity; try (intros; contradiction); [constructor | apply Nat.le_0_l]. Qed.
  Lemma li_asked R i b q : Linv R i b -> In q (qof R) -> Asked data n0 t0 (fst q) (snd q).
  Proof.
    intros L [<-|I]; [constructor|]. apply in_flat_map in I as (k & Ik & I). unfold key_queries in I. apply in_map_iff in I as (t & <- & It).
    destruct (li_in _ _ _ L k Ik) as (n & t1 & A & S). cbn [fst snd]. econstructor; eauto.
  Qed.
  Lemma li_valid R i b k : Linv R i b -> In k R -> valid_name k.
  Proof.
    intros L I. destruct (li_in _ _ _ L k I) as (n & t & A & rt & J & K). destruct (HA _ _ A) as (B & _ & RS & _).
    destruct (response_held _ _ _ RS B) as [H _]. rewrite Forall_forall in H. destruct (H rt J) as [Hd _]. unfold signer_of in K.
    destruct (fst rt); try contradiction. destruct K as [<-|[]]. unfold Held in Hd. cbn [typed_rr] in Hd. unfold valid_name. tauto.
  Qed.
  Lemma li_budget R i b : Linv R i b -> pb_made b <= 10.
  Proof.
    intros L. rewrite (li_made _ _ _ L), qof_len. assert (C : cost R <= cost keys).
    { apply cost_incl; [apply L|]. intros k Hk. apply HK. eapply li_in; eauto. }
    pose proof (needed_cost keys). lia.
  Qed.
  Lemma in_signers q k : In k (flat_map signer_of (dataq q)) <-> SignsFor data (fst q) (snd q) k.
  Proof. rewrite in_flat_map. reflexivity. Qed.

  (** One response. *)
  Lemma live_step R i b q : Linv R i b -> nth_error (qof R) i = Some q ->
    exists new qs b', process_response dbg b (respq q) = (Ok qs, b') /\ Linv (R ++ new) (S i) b' /\
      Forall2 query_of (flat_map key_queries new) qs.
  Proof.
    intros L E. assert (Iq : In q (qof R)) by (eapply nth_error_In; eauto). pose proof (li_asked _ _ _ _ L Iq) as A.
    destruct (HA _ _ A) as (B & LE & RS & OV).
    assert (Li : (i < length (qof R))%nat) by (apply nth_error_Some; congruence).
    assert (NP : pb_pending b <> 0) by (rewrite (li_pending _ _ _ L); lia).
    destruct (proj2 (process_accepts dbg b (respq q) B NP)) as (qs & P); [exists (dataq q); split; assumption|].
    destruct (process_response dbg b (respq q)) as [r b'] eqn:PE. cbn [fst] in P. subst r.
    destruct (process_ok _ _ _ _ _ B PE) as (items & new & qs' & R' & _ & _ & EB & ND & IN & F & EQ).
    pose proof (response_unique _ _ _ _ R' RS) as ->. change (data (fst q) (snd q)) with (dataq q) in *. rewrite (li_req _ _ _ L) in *.
    exists new, qs, b'.
    assert (L' : Linv (R ++ new) (S i) b').
    { assert (FN : firstn (S i) (qof (R ++ new)) = firstn i (qof R) ++ [q]).
      { rewrite qof_app, <- (firstn_S _ _ _ E), firstn_app. replace (S i - length (qof R))%nat with 0%nat by lia. apply app_nil_r. }
      subst b'. constructor; cbn [pb_requested pb_made pb_pending pb_proof pb_min_ttl].
      - reflexivity.
      - apply ND. apply L.
      - intros k Hk. apply IN in Hk as [Hk|Hk]; [exact (li_in _ _ _ L k Hk)|]. apply in_signers in Hk. eauto.
      - rewrite qof_app, app_length. lia.
      - pose proof (li_made _ _ _ L). rewrite !qof_len in *. rewrite cost_app. lia.
      - pose proof (li_pending _ _ _ L) as LP. rewrite LP. pose proof (qof_len (R ++ new)) as Q1. rewrite cost_app in Q1. pose proof (qof_len R). lia.
      - intros p k Ip Ik. rewrite FN in Ip. apply IN. apply in_app_iff in Ip as [Ip|[<-|[]]]; [left; exact (li_done _ _ _ L p k Ip Ik)|right; exact Ik].
      - rewrite FN, flat_map_app, write_all_app, (li_proof _ _ _ L).
        cbn [flat_map]. rewrite app_nil_r. reflexivity.
      - rewrite FN, flat_map_app, (li_ttl _ _ _ L).
        cbn [flat_map]. rewrite app_nil_r, <- min_ttl_min, N.min_l by apply min_ttl_le.
        unfold min_ttl. rewrite map_app, fold_left_app. reflexivity. }
    split; [reflexivity|]. split; [exact L'|].
    pose proof (li_budget _ _ _ L') as BU. apply N.leb_le in BU. rewrite BU in EQ. subst qs. exact F.
  Qed.

  Lemma live_drive : forall fuel R i b, Linv R i b -> (10 <= i + fuel)%nat ->
    exists R2 bf qs, Linv (R ++ R2) (length (qof (R ++ R2))) bf /\ Forall2 query_of (flat_map key_queries R2) qs /\
      (forall sent segs rest, concat segs = flat_map frame (map respq (skipn i (qof (R ++ R2)))) ++ rest ->
         drive dbg fuel b segs sent = (finish_proof bf, sent ++ map (fun q => send_query (qb_deref q)) qs)) /\
      (forall j sent segs, (i <= j < length (qof (R ++ R2)))%nat -> concat segs = flat_map frame (map respq (firstn (j - i) (skipn i (qof (R ++ R2))))) ->
         exists q1 q2, qs = q1 ++ q2 /\ drive dbg fuel b segs sent = (Err tt, sent ++ map (fun q => send_query (qb_deref q)) q1) /\
           (j < length (qof R) + length q1)%nat).
  Proof.
    induction fuel as [|fuel IH]; intros R i b L F.
    - assert (i = length (qof R)) as ->.
      { pose proof (li_budget _ _ _ L). pose proof (li_le _ _ _ L). rewrite (li_made _ _ _ L) in *. lia. }
      exists [], b, []. rewrite app_nil_r. split; [exact L|]. split; [constructor|]. split; [|intros; lia].
      intros sent segs rest _. cbn [drive]. assert (AW : awaiting_responses b = false).
      { destruct (awaiting_responses b) eqn:A; [|reflexivity]. apply awaiting_spec in A as [A _]. rewrite (li_pending _ _ _ L) in A. lia. }
      rewrite AW. cbn. rewrite app_nil_r. reflexivity.
    - destruct (Nat.eq_dec i (length (qof R))) as [->|NE].
      { exists [], b, []. rewrite app_nil_r. split; [exact L|]. split; [constructor|]. split; [|intros; lia].
        intros sent segs rest _. cbn [drive]. assert (AW : awaiting_responses b = false).
        { destruct (awaiting_responses b) eqn:A; [|reflexivity]. apply awaiting_spec in A as [A _]. rewrite (li_pending _ _ _ L) in A. lia. }
        rewrite AW. cbn. rewrite app_nil_r. reflexivity. }
      pose proof (li_le _ _ _ L) as LE. assert (LT : (i < length (qof R))%nat) by lia.
      destruct (skipn_nth i (qof R) LT) as (q & Eq & Sk).
      destruct (live_step _ _ _ _ L Eq) as (new & qs & b' & P & L' & Q).
      assert (AW : awaiting_responses b = true).
      { apply awaiting_spec. split; [rewrite (li_pending _ _ _ L); lia|eapply li_budget; eauto]. }
      destruct (HA _ _ (li_asked _ _ _ q L (nth_error_In _ _ Eq))) as (B & LB & _ & _). fold (respq q) in B, LB.
      destruct (IH _ _ _ L' ltac:(lia)) as (R2 & bf & qs2 & LF & F2 & D & E).
      exists (new ++ R2), bf, (qs ++ qs2). rewrite app_assoc. split; [exact LF|].
      split; [rewrite flat_map_app; apply Forall2_app; assumption|].
      assert (SK : skipn i (qof ((R ++ new) ++ R2)) = q :: skipn (S i) (qof ((R ++ new) ++ R2))).
      { rewrite <- !app_assoc, qof_app, !skipn_app1 by lia. rewrite Sk. reflexivity. }
      split.
      + intros sent segs rest C. rewrite SK in C. cbn [map flat_map] in C. rewrite <- app_assoc in C.
        destruct (read_frame segs (respq q) _ LB C) as (qb & segs' & RR & DQ & CR).
        cbn [drive]. rewrite AW, RR, DQ, P. rewrite (D _ _ _ CR), <- app_assoc, map_app. reflexivity.
      + intros j sent segs J C. destruct (Nat.eq_dec j i) as [->|NJ].
        * rewrite Nat.sub_diag in C. cbn in C. exists [], (qs ++ qs2). split; [reflexivity|]. split.
          -- cbn [drive]. rewrite AW. assert (RN : read_response segs = None).
             { unfold read_response. destruct (read_exact 2 segs) as [[d r]|] eqn:X; [|reflexivity]. apply read_exact_some in X as [X Y]. rewrite C in X. destruct d; [discriminate Y|discriminate X]. }
             rewrite RN. cbn. rewrite app_nil_r. reflexivity.
          -- cbn [length]. lia.
        * rewrite SK in C. replace (j - i)%nat with (S (j - S i)) in C by lia. cbn [firstn map flat_map] in C.
          destruct (read_frame segs (respq q) _ LB C) as (qb & segs' & RR & DQ & CR).
          destruct (E j (sent ++ map (fun q => send_query (qb_deref q)) qs) segs' ltac:(lia) CR) as (q1 & q2 & -> & D1 & J1).
          exists (qs ++ q1), q2. split; [apply app_assoc|]. split.
          -- cbn [drive]. rewrite AW, RR, DQ, P, D1, map_app, app_assoc. reflexivity.
          -- rewrite app_length. rewrite qof_app, app_length in J1. pose proof (forall2_length _ _ _ Q). lia.
  Qed.

  Lemma linv_final R b : Linv R (length (qof R)) b -> Permutation R keys.
  Proof.
    intros L. apply NoDup_Permutation; [apply L|apply HK|]. intros k. split; [intros I; apply HK; exact (li_in _ _ _ L k I)|].
    intros I. apply HK in I as (n & t & A & S).
    assert (G : forall n t, Asked data n0 t0 n t -> In (n, t) (qof R)).
    { intros n' t' A'. induction A' as [|n1 t1 k1 t2 A1 IH1 S1 T1]; [left; reflexivity|].
      right. apply in_flat_map. exists k1. split; [|unfold key_queries; apply in_map; exact T1].
      apply (li_done _ _ _ L (n1, t1)); [rewrite firstn_all; exact IH1|apply in_signers; exact S1]. }
    apply (li_done _ _ _ L (n, t)); [rewrite firstn_all; apply G; exact A|apply in_signers; exact S].
  Qed.
  Lemma linv_finish R b : Linv R (length (qof R)) b -> exists ttl,
    finish_proof b = Ok (write_all (flat_map dataq (qof R)), ttl) /\ is_min ttl (map snd (flat_map dataq (qof R))).
  Proof.
    intros L. exists (pb_min_ttl b). pose proof (li_budget _ _ _ L) as BU. split.
    - unfold finish_proof. rewrite (li_pending _ _ _ L), Nat.sub_diag. cbn [N.of_nat]. change (0 <? 0) with false. cbn [orb].
      assert (X : MAX_REQUESTS <? pb_made b = false) by (apply N.ltb_ge; exact BU). rewrite X, (li_proof _ _ _ L), firstn_all. reflexivity.
    - rewrite (li_ttl _ _ _ L), firstn_all. apply min_ttl_is_min.
      + assert (A : Asked data n0 t0 n0 t0) by constructor. destruct (HA _ _ A) as (_ & _ & (f & ans & auth & _ & _ & _ & _ & _ & _ & NE & X) & _).
        unfold qof. cbn [flat_map]. unfold dataq at 1. cbn [fst snd]. rewrite X. destruct ans; [congruence|discriminate].
      + apply Forall_forall. intros rt I. apply in_flat_map in I as (q & Iq & I).
        destruct (HA _ _ (li_asked _ _ _ q L Iq)) as (B & _ & RS & _). destruct (response_held _ _ _ RS B) as [H _]. rewrite Forall_forall in H.
        destruct (H rt I) as [_ U]. unfold is_u32 in U. lia.
  Qed.
End Live.

Lemma live_built data dbg n ty resp keys : name_try_from n = Some n -> ty < 65536 -> Answers data dbg n ty resp ->
  AllSigners data n ty keys -> (needed keys <= 10)%nat ->
  exists qs sent, Permutation qs (questions n ty keys) /\ hd_error qs = Some (n, ty) /\
    Forall2 (fun q f => exists b, Query (fst q) (snd q) b /\ f = frame b) qs sent /\
    (forall segs rest, concat segs = flat_map frame (map (fun q => resp (fst q) (snd q)) qs) ++ rest ->
      exists ttl, build_proof dbg 10 n ty segs = (Ok (flat_map (fun rt => write_rr (fst rt) (snd rt)) (flat_map (fun q => data (fst q) (snd q)) qs), ttl), sent) /\
        is_min ttl (map snd (flat_map (fun q => data (fst q) (snd q)) qs))) /\
    (forall i segs, (i < length qs)%nat -> concat segs = flat_map frame (map (fun q => resp (fst q) (snd q)) (firstn i qs)) ->
      exists s1 s2, sent = s1 ++ s2 /\ build_proof dbg 10 n ty segs = (Err tt, s1) /\ (i < length s1)%nat).
Proof.
  intros V T HA HK HN. destruct (query_built n ty V T) as (q & BQ & QQ & QL).
  destruct (live_drive data dbg n ty resp keys HA HK HN 10 [] 0 builder_init (linv_init data n ty) ltac:(lia)) as (R & bf & qs & L & F & D & E). cbn [app] in *.
  destruct (linv_finish _ _ _ _ _ _ HA HK HN _ _ L) as (ttl & FP & MT).
  exists (qof n ty R), (send_query (qb_deref q) :: map (fun q => send_query (qb_deref q)) qs).
  split. { unfold qof, questions. constructor. apply Permutation_flat_map. eapply linv_final; eassumption. }
  split; [reflexivity|]. split.
  { unfold qof. constructor.
    - exists (qb_deref q). split; [exact QQ|]. apply send_frame. unfold length_of. lia.
    - assert (G : forall kt, In kt (flat_map key_queries R) -> valid_name (fst kt) /\ snd kt < 65536).
      { intros kt I. apply in_flat_map in I as (k & Ik & I). apply in_map_iff in I as (t & <- & It). split; [eapply li_valid; eassumption|].
        unfold key_types in It. cbn [snd]. destruct (list_eq_dec _ _ _); cbn in It; destruct It as [<-|It]; try lia; destruct It as [<-|[]]; lia. }
      clear - F G. induction F as [|kt x l m [B Q] F IH]; [constructor|]. constructor; [|apply IH; intros y Iy; apply G; right; exact Iy].
      exists (qb_deref x). split; [exact Q|]. apply send_frame. destruct (G kt (or_introl eq_refl)) as [Vk Tk].
      destruct (build_query_spec _ _ Vk Tk) as (x' & B' & _ & L'). rewrite B in B'. injection B' as <-. unfold length_of. lia. }
  split.
  - intros segs rest C. exists ttl. split; [|exact MT]. unfold build_proof. rewrite BQ. cbn [skipn] in D.
    rewrite (D [send_query (qb_deref q)] segs rest C), FP. reflexivity.
  - intros i segs I C. destruct (E i [send_query (qb_deref q)] segs ltac:(lia)) as (q1 & q2 & -> & D1 & J).
    { rewrite Nat.sub_0_r. exact C. }
    exists (send_query (qb_deref q) :: map (fun q => send_query (qb_deref q)) q1), (map (fun q => send_query (qb_deref q)) q2).
    split; [rewrite map_app; reflexivity|]. unfold build_proof. rewrite BQ, D1. split; [reflexivity|]. cbn [length]. rewrite map_length. cbn in J. lia.
Qed.
