(** One resolver, over HTTPS and over TCP. *)
From Verif Require Import Base BaseP NameM NameSpec NameP WireM RRM SerM RecSpec RecP2 ValM QueryM QuerySpec QueryP2 QueryP3 QueryP4 AcceptSpec JsonM WasmM WasmSpec DohM DohSpec DohP DohP3 ArriveSpec ArriveP ArriveP2.
From Coq Require Import Lia List PeanoNat Permutation.
Import ListNotations.
Local Open Scope N_scope.

Lemma arrive_snoc dbg answer b w o b1 w1 q w2 qs b2 : Arrive dbg answer b w o b1 (w1 ++ q :: w2) -> process_response dbg b1 (answer q) = (Ok qs, b2) ->
  Arrive dbg answer b w (o ++ [q]) b2 (w1 ++ w2 ++ map qb_deref qs).
Proof.
  intros A P. remember (w1 ++ q :: w2) as w' eqn:E. induction A as [b w | b v1 x v2 xs bx o b' w' PX A IH]; subst.
  - econstructor; [exact P | constructor].
  - cbn [app]. econstructor; [exact PX | exact (IH eq_refl P)].
Qed.
Definition asked (q0 : qbuf) (tr : list (list N * outcome unit (list qbuf))) : list (list N) := map qb_deref (q0 :: handed tr).
Lemma handed_snoc tr m r : handed (tr ++ [(m, r)]) = handed tr ++ match r with Ok qs => qs | _ => [] end.
Proof. unfold handed. rewrite flat_map_app. cbn [flat_map snd]. rewrite app_nil_r. reflexivity. Qed.
Lemma asked_snoc q0 tr m r : asked q0 (tr ++ [(m, r)]) = asked q0 tr ++ map qb_deref match r with Ok qs => qs | _ => [] end.
Proof. unfold asked. rewrite handed_snoc. cbn [map]. rewrite map_app. reflexivity. Qed.
Lemma split_nth {A} (l : list A) i x : nth_error l i = Some x -> skipn i l = x :: skipn (S i) l /\ firstn (S i) l = firstn i l ++ [x].
Proof.
  revert l. induction i as [| i IH]; intros [| y l] H; try discriminate H; cbn in H.
  - injection H as ->. split; reflexivity.
  - destruct (IH _ H) as [A1 A2]. split; [exact A1 |]. change (firstn (S (S i)) (y :: l)) with (y :: firstn (S i) l). rewrite A2. reflexivity.
Qed.
(** The calls answer the queries in the order in which they were handed out. *)
Definition InTurn (answer : list N -> list N) (Q : list (list N)) (tr : list (list N * outcome unit (list qbuf))) : Prop :=
  exists k, map fst tr = map answer (firstn k Q) /\ (k <= length Q)%nat.
Lemma in_turn_snoc answer Q tr m r : InTurn answer Q (tr ++ [(m, r)]) -> InTurn answer Q tr /\ exists q, nth_error Q (length tr) = Some q /\ m = answer q.
Proof.
  intros (k & E & L). rewrite map_app in E. cbn [map] in E.
  assert (K : k = S (length tr)). { apply (f_equal (@length _)) in E. rewrite app_length, !map_length, firstn_length in E. cbn in E. lia. }
  subst k. destruct (nth_error Q (length tr)) as [q |] eqn:N; [| apply nth_error_None in N; lia].
  pose proof (proj2 (split_nth _ _ _ N)) as F.
  rewrite F, map_app in E. cbn [map] in E. apply app_inj_tail in E as [E1 E2]. split; [| exists q; auto]. exists (length tr). split; [exact E1 | lia].
Qed.
Lemma nth_prefix {A} (l m : list A) i x : nth_error (l ++ m) i = Some x -> (i < length l)%nat -> nth_error l i = Some x.
Proof. intros H L. rewrite nth_error_app1 in H by exact L. exact H. Qed.
Lemma not_pending dbg b m : pb_pending b = 0 -> process_response dbg b m = (Err tt, b).
Proof. intros P. unfold process_response. rewrite P. reflexivity. Qed.

Section Forth.
  Variables (dbg : bool) (answer : list N -> list N) (n : list N) (ty : N) (b0 : builder) (q0 : qbuf) (order : list (list N)) (bo : builder) (p : list N) (ttl : N).
  Hypothesis HB : forall q, is_bytes (answer q).
  Hypothesis E : builder_new n ty = Ok (b0, q0).
  Hypothesis A : Arrive dbg answer b0 [qb_deref q0] order bo [].
  Hypothesis F : finish_proof bo = Ok (p, ttl).

  Lemma fifo_forth tr b : Calls dbg b0 tr b -> forall Q, (exists more, Q = asked q0 tr ++ more) -> InTurn answer Q tr ->
    ((length tr <= length (asked q0 tr))%nat /\ Arrive dbg answer b0 [qb_deref q0] (firstn (length tr) (asked q0 tr)) b (skipn (length tr) (asked q0 tr))) \/
    ((length (asked q0 tr) < length tr)%nat /\ pb_pending b = 0).
  Proof.
    intros C. remember b0 as bs eqn:ES. induction C as [b | b tr b1 m r b2 C IH P NP NL]; intros Q (more & EQ) T; subst.
    - left. cbn [length firstn skipn asked handed map]. split; [lia |]. constructor.
    - destruct (in_turn_snoc _ _ _ _ _ T) as (T1 & q & Nq & ->). rewrite asked_snoc in *. rewrite app_length. cbn [length]. rewrite <- app_assoc in *.
      specialize (IH eq_refl E A _ (ex_intro _ _ eq_refl) T1). destruct IH as [[L AR] | [L PN]].
      + destruct (Nat.eq_dec (length tr) (length (asked q0 tr))) as [X | X].
        * rewrite X, skipn_all, firstn_all in AR. destruct (any_order dbg answer n ty _ q0 order bo _ b1 p ttl HB E A F AR) as (_ & p' & _ & _ & F' & _).
          apply finish_inv in F' as (PN & _). rewrite (not_pending dbg b1 _ PN) in P. injection P as <- <-. right. cbn [map]. rewrite app_nil_r. split; [lia | exact PN].
        * apply nth_prefix in Nq; [| lia]. destruct (split_nth _ _ _ Nq) as [S1 S2]. rewrite S1 in AR.
          destruct (any_start dbg answer n ty _ q0 order bo _ b1 _ p ttl HB E A F AR) as (_ & G & _). destruct (G q (or_introl eq_refl)) as (qs & b3 & P'). rewrite P in P'. injection P' as -> <-.
          left. rewrite app_length. split; [lia |]. pose proof (arrive_snoc dbg answer _ _ _ _ [] q _ qs _ AR P) as AS. cbn [app] in AS.
          replace (length tr + 1)%nat with (S (length tr)) by lia. rewrite firstn_app, skipn_app.
          replace (S (length tr) - length (asked q0 tr))%nat with 0%nat by lia. rewrite firstn_O, skipn_O, app_nil_r, S2. exact AS.
      + rewrite (not_pending dbg b1 _ PN) in P. injection P as <- <-. right. cbn [map]. rewrite app_nil_r. split; [lia | exact PN].
  Qed.
End Forth.

(** Backwards: if all calls succeed they are answers to queries handed out before. *)
Lemma all_accepted tr : (length tr <= length (accepted tr))%nat -> forall c, In c tr -> is_ok (snd c) = true.
Proof.
  unfold accepted. rewrite map_length. induction tr as [| c tr IH]; cbn [filter]; intros L d I; [destruct I |].
  assert (S : (length (filter (fun c => is_ok (snd c)) tr) <= length tr)%nat) by (clear; induction tr as [| c tr IH]; cbn; [lia | destruct (is_ok (snd c)); cbn; lia]).
  destruct (is_ok (snd c)) eqn:K; cbn [length] in L; [| lia]. destruct I as [<- | I]; [exact K |]. apply IH; [lia | exact I].
Qed.
Lemma ok_accepted tr : (forall c, In c tr -> is_ok (snd c) = true) -> length (accepted tr) = length tr.
Proof. unfold accepted. rewrite map_length. induction tr as [| c tr IH]; intros H; [reflexivity |]. cbn [filter]. rewrite (H c (or_introl eq_refl)). cbn [length]. rewrite IH; [reflexivity |]. intros d I. apply H. right. exact I. Qed.
Lemma made_le dbg b m qs b2 : is_bytes m -> process_response dbg b m = (Ok qs, b2) -> pb_made b <= pb_made b2.
Proof.
  intros B P. assert (A : Arrive dbg (fun _ => m) b [[]] [[]] b2 (map qb_deref qs)).
  { apply (Arrive_one dbg (fun _ => m) b [] [] [] qs b2 [] b2 _ P). constructor. }
  exact (arrive_made dbg (fun _ => m) _ _ _ _ _ (fun _ => B) A).
Qed.
Lemma handed_length dbg tr b : Inv dbg tr b -> pb_made b <= 10 -> pb_made b = 1 + len (handed tr).
Proof.
  intros I M. rewrite (inv_made _ _ _ I). f_equal. pose proof (inv_queries _ _ _ I M) as Q. apply forall2_length in Q. unfold cost, len. rewrite <- Q, key_queries_length. reflexivity.
Qed.
Lemma fifo_back dbg answer q0 tr b : (forall q, is_bytes (answer q)) -> Calls dbg builder_init tr b -> (forall c, In c tr -> is_ok (snd c) = true) -> pb_made b <= 10 ->
  forall Q, (exists more, Q = asked q0 tr ++ more) -> InTurn answer Q tr ->
  (length tr <= length (asked q0 tr))%nat /\ Arrive dbg answer builder_init [qb_deref q0] (firstn (length tr) (asked q0 tr)) b (skipn (length tr) (asked q0 tr)).
Proof.
  intros HB C. remember builder_init as bs eqn:ES. induction C as [b | b tr b1 m r b2 C IH P NP NL]; intros OK M Q (more & EQ) T; subst.
  - cbn [length firstn skipn asked handed map]. split; [lia |]. constructor.
  - destruct (in_turn_snoc _ _ _ _ _ T) as (T1 & q & Nq & ->). rewrite asked_snoc in *. rewrite app_length. cbn [length]. rewrite <- app_assoc in *.
    assert (K : is_ok (snd (answer q, r)) = true) by (apply OK, in_or_app; right; left; reflexivity). cbn [snd] in K. destruct r as [qs | | |]; try discriminate K.
    pose proof (made_le _ _ _ _ _ (HB q) P) as M1. assert (M2 : pb_made b1 <= 10) by lia.
    assert (OK1 : forall c, In c tr -> is_ok (snd c) = true) by (intros c I; apply OK, in_or_app; left; exact I).
    destruct (IH eq_refl OK1 M2 _ (ex_intro _ _ eq_refl) T1) as [L AR].
    assert (BY : Forall (fun c => is_bytes (fst c)) tr).
    { destruct T1 as (k & E1 & _). apply Forall_forall. intros c I. apply (in_map fst) in I. rewrite E1 in I. apply in_map_iff in I as (x & <- & _). apply HB. }
    pose proof (calls_inv _ _ _ C BY) as I1. pose proof (handed_length _ _ _ I1 M2) as HL. pose proof (inv_pending _ _ _ I1) as PE.
    assert (PN : pb_pending b1 <> 0). { intros Z. rewrite (not_pending dbg b1 _ Z) in P. discriminate P. }
    assert (X : (length tr < length (asked q0 tr))%nat).
    { unfold asked. rewrite map_length. cbn [length]. unfold len in *. rewrite (ok_accepted _ OK1) in PE. lia. }
    apply nth_prefix in Nq; [| exact X]. destruct (split_nth _ _ _ Nq) as [S1 S2]. rewrite S1 in AR.
    rewrite app_length. split; [lia |]. pose proof (arrive_snoc dbg answer _ _ _ _ [] q _ qs _ AR P) as AS. cbn [app] in AS.
    replace (length tr + 1)%nat with (S (length tr)) by lia. rewrite firstn_app, skipn_app.
    replace (S (length tr) - length (asked q0 tr))%nat with 0%nat by lia. rewrite firstn_O, skipn_O, app_nil_r, S2. exact AS.
Qed.

(** The bodies fetched are the answers. *)
Lemma fetched_answers (fetch : nat -> list N -> fetched) endpoint answer qs urls bodies : (forall i q u, GetUrl endpoint q u -> fetch i u = Body (answer q)) ->
  Forall2 (fun q u => GetUrl endpoint (qb_deref q) u) qs urls -> length urls = length bodies ->
  (forall i u b, nth_error urls i = Some u -> nth_error bodies i = Some b -> exists j, fetch j u = Body b) -> bodies = map answer (map qb_deref qs).
Proof.
  intros HF G. revert bodies. induction G as [| q u qs urls G GS IH]; intros [| b bodies] L FE; try discriminate L; [reflexivity |]. cbn [map].
  destruct (FE 0%nat u b eq_refl eq_refl) as (j & X). rewrite (HF j _ _ G) in X. injection X as <-. f_equal. apply IH; [injection L as L; exact L |].
  intros i u' b' E1 E2. exact (FE (S i) u' b' E1 E2).
Qed.
Lemma short_all l : Forall (fun m => length_of m < 65535) l -> short 65535 l = l.
Proof. induction 1 as [| m l L F IH]; [reflexivity |]. unfold short in *. cbn [filter]. rewrite IH. unfold length_of in L. apply N.ltb_lt in L. rewrite L. reflexivity. Qed.

Section Both.
  Variables (e : env) (dbg : bool) (reparse : list N -> option (list N)) (trap : list N) (fetch : nat -> list N -> fetched) (endpoint : list N).
  Variables (answer : list N -> list N) (domain typ : list N) (ty : N) (n : list N) (b0 : builder) (q0 : qbuf).
  Hypothesis HA : forall q, is_bytes (answer q) /\ length_of (answer q) < 65535.
  Hypothesis HF : forall i q u, GetUrl endpoint q u -> fetch i u = Body (answer q).
  Hypothesis HY : forall i u m, fetch i u = Body m -> is_bytes m.
  Hypothesis HT : TypeName typ ty.
  Hypothesis HN : name_try_from (completed domain) = Some n.
  Hypothesis HE : builder_new n ty = Ok (b0, q0).

  Lemma answers_short qs : short 65535 (map answer qs) = map answer qs.
  Proof. apply short_all. apply Forall_map, Forall_forall. intros q _. apply HA. Qed.
  Lemma turn_all tr qs later urls bodies : map fst tr = short 65535 bodies -> q0 :: handed tr = qs ++ later ->
    forall us us', urls = us ++ us' -> Forall2 (fun q u => GetUrl endpoint (qb_deref q) u) qs urls -> Fetched fetch us bodies ->
    InTurn answer (asked q0 tr) tr /\ length tr = length us /\ (length us <= length qs)%nat.
  Proof.
    intros ET EQ us us' EU G [L FE]. assert (X : bodies = map answer (map qb_deref (firstn (length us) qs))).
    { apply (fetched_answers fetch endpoint answer _ us bodies HF); [| exact L | intros i u b E1 E2; exists i; exact (FE i u b E1 E2)].
      subst urls. clear - G. revert us G. induction qs as [| q qs IH]; intros [| u us] G; try (constructor; fail); [inversion G |]. cbn [app] in G. inversion G; subst. cbn [length firstn]. constructor; [assumption | apply IH; assumption]. }
    assert (LQ : (length us <= length qs)%nat). { apply forall2_length in G. rewrite G, EU, app_length. lia. }
    assert (LT : length tr = length us). { rewrite L, <- (map_length fst tr), ET, X, answers_short. reflexivity. }
    split; [| auto]. exists (length us). unfold asked. rewrite EQ, map_app, firstn_app, map_length. replace (length us - length qs)%nat with 0%nat by lia. rewrite firstn_O, app_nil_r, firstn_map, ET, X, answers_short. split; [reflexivity |].
    rewrite app_length, map_length. lia.
  Qed.

  Lemma https_forth order b p ttl k fuel : (11 <= k)%nat -> Arrive dbg answer b0 [qb_deref q0] order b [] -> finish_proof b = Ok (p, ttl) ->
    exists r urls order' p' items items', lookup_doh e dbg fuel reparse trap fetch endpoint k domain (TyText typ) = (r, urls) /\
      Permutation order order' /\ Forall2 (GetUrl endpoint) order' urls /\ Brings dbg answer order items /\ Brings dbg answer order' items' /\
      Permutation items items' /\ p = write_all items /\ p' = write_all items' /\ Checked e dbg fuel reparse p' r.
  Proof.
    intros K A F. pose proof (fun q => proj1 (HA q)) as HB. destruct (lookup_doh e dbg fuel reparse trap fetch endpoint k domain (TyText typ)) as [r urls] eqn:LK. exists r, urls.
    destruct (doh_run e dbg fuel reparse trap fetch endpoint k domain typ ty n r urls K HT HN HY LK) as (b0' & q0' & tr & b' & bodies & qs & E' & C & ET & G & _ & CASES).
    rewrite HE in E'. injection E' as <- <-. destruct CASES as [(EQ & FE & R) | (us & u & later & EU & EQ & FE & R)].
    - assert (EQ' : q0 :: handed tr = qs ++ []) by (rewrite app_nil_r; auto). destruct (turn_all tr qs [] urls bodies ET EQ' urls [] (eq_sym (app_nil_r _)) G FE) as (T & LT & _).
      assert (LA : length tr = length (asked q0 tr)). { unfold asked. rewrite map_length, <- EQ, LT. symmetry. exact (forall2_length _ _ _ G). }
      destruct (fifo_forth dbg answer n ty b0 q0 order b p ttl HB HE A F tr b' C _ (ex_intro _ [] (eq_sym (app_nil_r _))) T) as [[_ AR] | [X _]]; [| lia].
      rewrite LA, firstn_all, skipn_all in AR. destruct (any_order dbg answer n ty b0 q0 order b _ b' p ttl HB HE A F AR) as (PO & p' & items & items' & F' & B1 & B2 & PI & EP & EP').
      exists (asked q0 tr), p', items, items'. split; [reflexivity |]. split; [exact PO |]. split.
      { unfold asked. rewrite <- EQ. clear - G. induction G; constructor; assumption. }
      repeat (split; [assumption |]). destruct R as [(p2 & t2 & F2 & CH) | [NF _]]; [| exfalso; exact (NF _ F')]. rewrite F' in F2. injection F2 as <- _. exact CH.
    - exfalso. destruct (turn_all tr qs later urls bodies ET EQ us [u] EU G FE) as (T & LT & LQ). pose proof (forall2_length _ _ _ G) as LG. rewrite EU, app_length in LG. cbn [length] in LG.
      assert (LA : (length tr < length (asked q0 tr))%nat). { unfold asked. rewrite map_length, EQ, app_length. lia. }
      destruct (fifo_forth dbg answer n ty b0 q0 order b p ttl HB HE A F tr b' C _ (ex_intro _ [] (eq_sym (app_nil_r _))) T) as [[_ AR] | [X _]]; [| lia].
      destruct (any_start dbg answer n ty b0 q0 order b _ b' _ p ttl HB HE A F AR) as (_ & G2 & _).
      destruct (nth_error qs (length us)) as [q |] eqn:NQ; [| apply nth_error_None in NQ; lia].
      assert (NA : nth_error (asked q0 tr) (length tr) = Some (qb_deref q)). { unfold asked. rewrite EQ, LT, nth_error_map, nth_error_app1 by lia. rewrite NQ. reflexivity. }
      destruct (split_nth _ _ _ NA) as [S1 _]. rewrite S1 in G2. destruct (G2 _ (or_introl eq_refl)) as (qs2 & b2 & P).
      assert (GU : GetUrl endpoint (qb_deref q) u).
      { subst urls. clear - G NQ. revert us G NQ. induction qs as [| x qs IH]; intros [| v us] G NQ; try discriminate NQ; cbn [app] in G; inversion G; subst; cbn in NQ; [injection NQ as <-; assumption | eapply IH; eassumption]. }
      destruct R as [(exn & R & _) | (m & R & BR & _)]; rewrite (HF _ _ _ GU) in R; [discriminate R |]. injection R as <-.
      assert (PN : pb_pending b' <> 0). { intros Z. rewrite (not_pending dbg b' _ Z) in P. discriminate P. }
      apply (proj2 (proj1 (process_panic dbg b' _ (HB _) PN))) in BR. rewrite P in BR. discriminate BR.
  Qed.

  Lemma https_back k fuel r urls : (11 <= k)%nat -> lookup_doh e dbg fuel reparse trap fetch endpoint k domain (TyText typ) = (r, urls) ->
    r <> JText build_failed -> (forall exn, r <> JText (query_failed exn)) ->
    exists order b p ttl, Arrive dbg answer b0 [qb_deref q0] order b [] /\ finish_proof b = Ok (p, ttl) /\ Forall2 (GetUrl endpoint) order urls /\ Checked e dbg fuel reparse p r.
  Proof.
    intros K LK R1 R2. pose proof (fun q => proj1 (HA q)) as HB.
    destruct (doh_run e dbg fuel reparse trap fetch endpoint k domain typ ty n r urls K HT HN HY LK) as (b0' & q0' & tr & b' & bodies & qs & E' & C & ET & G & _ & CASES).
    rewrite HE in E'. injection E' as <- <-. destruct CASES as [(EQ & FE & [(p & ttl & F & CH) | [_ R]]) | (us & u & later & _ & _ & _ & [(exn & _ & R) | (m & _ & _ & R)])];
      [| destruct (R1 R) | destruct (R2 _ R) | destruct (R2 _ R)].
    assert (EQ' : q0 :: handed tr = qs ++ []) by (rewrite app_nil_r; auto). destruct (turn_all tr qs [] urls bodies ET EQ' urls [] (eq_sym (app_nil_r _)) G FE) as (T & LT & _).
    assert (LA : length tr = length (asked q0 tr)). { unfold asked. rewrite map_length, <- EQ, LT. symmetry. exact (forall2_length _ _ _ G). }
    pose proof (new_init _ _ _ _ HE) as ->. apply finish_inv in F as FI. destruct FI as (PN & M & _).
    assert (BY : Forall (fun c => is_bytes (fst c)) tr).
    { destruct T as (j & E1 & _). apply Forall_forall. intros c I. apply (in_map fst) in I. rewrite E1 in I. apply in_map_iff in I as (x & <- & _). apply HB. }
    pose proof (calls_inv _ _ _ C BY) as I1. pose proof (handed_length _ _ _ I1 M) as HL. pose proof (inv_pending _ _ _ I1) as PE.
    assert (OK : forall c, In c tr -> is_ok (snd c) = true).
    { apply all_accepted. unfold asked in LA. rewrite map_length in LA. cbn [length] in LA. unfold len in *. lia. }
    destruct (fifo_back dbg answer q0 tr b' HB C OK M _ (ex_intro _ [] (eq_sym (app_nil_r _))) T) as [_ AR]. rewrite LA, firstn_all, skipn_all in AR.
    exists (asked q0 tr), b', p, ttl. split; [exact AR |]. split; [exact F |]. split; [| exact CH]. unfold asked. rewrite <- EQ. clear - G. induction G; constructor; assumption.
  Qed.
End Both.
