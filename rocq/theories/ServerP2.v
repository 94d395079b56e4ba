(** The server as a whole: every connection by itself. *)
From Verif Require Import Base BaseP NameM NameSpec NameP WireM RRM SerM HeldP ValM RecSpec ValSpec QueryM QuerySpec QueryP QueryP4 AcceptSpec JsonM TextSpec HttpM HttpSpec HttpP LiveSpec LiveP LiveP2 LiveP3 ServerM ServerSpec ServerP.
From Coq Require Import String Lia List PeanoNat Permutation.
Import ListNotations.
Local Open Scope N_scope.

Lemma nth_update i j f l : nth_error (update j f l) i = if Nat.eqb j i then option_map f (nth_error l i) else nth_error l i.
Proof.
  revert i j. induction l as [| t l IH]; intros i j; [destruct j, i; cbn; try reflexivity; destruct (Nat.eqb _ _); reflexivity |].
  destruct j, i; cbn [update nth_error Nat.eqb]; try reflexivity. apply IH.
Qed.
Lemma length_update j f l : List.length (update j f l) = List.length l.
Proof. revert j. induction l as [| t l IH]; intros [| j]; cbn [update List.length]; auto. Qed.

Lemma down_run dbg acts : forall s, sv_up s = false -> fold_left (act dbg) acts s = s.
Proof. induction acts as [| a acts IH]; intros s H; [reflexivity |]. cbn [fold_left]. unfold act at 2. rewrite H. apply IH, H. Qed.

(** ** Per connection: [cs], [rs] so far. *)
Definition Good (dbg : bool) (cs : list sock_event) (rs : list res_event) (t : task) : Prop := Inv dbg cs rs t /\ (left t <= work cs rs)%nat.
Lemma sum_app a b : list_sum (a ++ b) = (list_sum a + list_sum b)%nat.
Proof. unfold list_sum. induction a; cbn; lia. Qed.
Lemma good_poll dbg cs rs t : bytes_rs rs -> Good dbg cs rs t -> Good dbg cs rs (poll dbg t).
Proof.
  intros B [I L]. split; [apply poll_inv; assumption |]. destruct (poll_left dbg t) as [X | X]; [rewrite blocked_poll by exact X; exact L | lia].
Qed.

Lemma good_run dbg acts : forall s i cs rs,
  (forall t, nth_error (sv_tasks s) i = Some t -> Good dbg cs rs t) -> ((List.length (sv_tasks s) <= i)%nat -> cs = [] /\ rs = []) ->
  sv_up s = true -> bytes_rs (rs ++ resolver_of i (List.length (sv_tasks s)) acts) ->
  forall t, nth_error (sv_tasks (fold_left (act dbg) acts s)) i = Some t ->
  Good dbg (cs ++ client_of i (List.length (sv_tasks s)) acts) (rs ++ resolver_of i (List.length (sv_tasks s)) acts) t.
Proof.
  induction acts as [| a acts IH]; intros s i cs rs G Z U B t H.
  - cbn [client_of resolver_of]. rewrite !app_nil_r. apply G, H.
  - cbn [fold_left] in H. unfold act at 2 in H. rewrite U in H. cbn [negb] in H. destruct a as [| | j ev | j ev | j].
    + cbn [client_of resolver_of] in *. set (s' := {| sv_up := true; sv_tasks := sv_tasks s ++ [new_task] |}) in *.
      assert (LN : List.length (sv_tasks s') = Datatypes.S (List.length (sv_tasks s))) by (cbn; rewrite app_length; cbn; lia).
      rewrite <- LN in *. apply IH; [| | reflexivity | exact B | exact H].
      * intros t' H'. cbn [s' sv_tasks] in H'. destruct (Nat.lt_ge_cases i (List.length (sv_tasks s))) as [L | L].
        -- rewrite nth_error_app1 in H' by exact L. apply G, H'.
        -- rewrite nth_error_app2 in H' by exact L. destruct (Z L) as [-> ->]. destruct (i - List.length (sv_tasks s))%nat as [| m]; [| destruct m; discriminate].
           injection H' as <-. split; [apply new_inv | cbn; lia].
      * intros L. rewrite LN in L. apply Z. lia.
    + cbn [client_of resolver_of] in *. rewrite !app_nil_r. rewrite down_run in H by reflexivity. apply G, H.
    + cbn [client_of resolver_of] in *. set (s' := on_task s j _) in H.
      assert (LN : List.length (sv_tasks s') = List.length (sv_tasks s)) by apply length_update. rewrite <- LN in *.
      rewrite app_assoc. apply (IH s'); [| | exact U | exact B | exact H].
      * intros t' H'. cbn [s' on_task sv_tasks] in H'. rewrite nth_update in H'. destruct (Nat.eqb_spec j i) as [-> | NE]; cbn [andb].
        -- destruct (nth_error (sv_tasks s) i) as [t0 |] eqn:T0; [| discriminate]. injection H' as <-.
           assert (X : (i < List.length (sv_tasks s'))%nat) by (rewrite LN; apply nth_error_Some; congruence). apply Nat.ltb_lt in X. rewrite X.
           destruct (G _ eq_refl) as [I L]. split; [apply client_inv, I |]. unfold work, left in *. cbn [tk_ctl tk_client tk_resolver]. rewrite app_length. cbn [List.length].
           destruct (tk_ctl t0); rewrite ?app_length; cbn [List.length]; lia.
        -- rewrite app_nil_r. apply G, H'.
      * intros L. destruct (Z L) as [-> ->]. split; [| reflexivity]. cbn [app]. replace (Nat.ltb i (List.length (sv_tasks s'))) with false; [rewrite Bool.andb_false_r; reflexivity |].
        symmetry. apply Nat.ltb_ge. exact L.
    + cbn [client_of resolver_of] in *. set (s' := on_task s j _) in H.
      assert (LN : List.length (sv_tasks s') = List.length (sv_tasks s)) by apply length_update. rewrite <- LN in *.
      rewrite app_assoc in *. apply (IH s'); [| | exact U | exact B | exact H].
      * intros t' H'. cbn [s' on_task sv_tasks] in H'. rewrite nth_update in H'. destruct (Nat.eqb_spec j i) as [-> | NE]; cbn [andb].
        -- destruct (nth_error (sv_tasks s) i) as [t0 |] eqn:T0; [| discriminate]. injection H' as <-.
           assert (X : (i < List.length (sv_tasks s'))%nat) by (rewrite LN; apply nth_error_Some; congruence). apply Nat.ltb_lt in X. rewrite X.
           destruct (G _ eq_refl) as [I L]. split; [apply resolver_inv, I |]. unfold work, left in *. cbn [tk_ctl tk_client tk_resolver].
           rewrite !map_app, !sum_app. destruct (tk_ctl t0); cbn [map]; lia.
        -- rewrite app_nil_r. apply G, H'.
      * intros L. destruct (Z L) as [-> ->]. split; [reflexivity |]. cbn [app]. replace (Nat.ltb i (List.length (sv_tasks s'))) with false; [rewrite Bool.andb_false_r; reflexivity |].
        symmetry. apply Nat.ltb_ge. exact L.
    + cbn [client_of resolver_of] in *. set (s' := on_task s j _) in H.
      assert (LN : List.length (sv_tasks s') = List.length (sv_tasks s)) by apply length_update. rewrite <- LN in *.
      apply (IH s'); [| exact Z | exact U | exact B | exact H].
      intros t' H'. cbn [s' on_task sv_tasks] in H'. rewrite nth_update in H'. destruct (Nat.eqb_spec j i) as [-> | NE].
      * destruct (nth_error (sv_tasks s) i) as [t0 |] eqn:T0; [| discriminate]. injection H' as <-. apply good_poll; [| apply G; reflexivity].
        intros d Hd. apply B. apply in_app_iff. auto.
      * apply G, H'.
Qed.

Lemma server_good dbg acts i t : bytes_rs (resolver_of i 0 acts) -> nth_error (sv_tasks (run_server dbg acts)) i = Some t ->
  Good dbg (client_of i 0 acts) (resolver_of i 0 acts) t.
Proof.
  intros B H. apply (good_run dbg acts start i [] []); [intros t0 X; destruct i; discriminate | auto | reflexivity | exact B | exact H].
Qed.

(** C67: what is written. *)
Lemma server_served dbg acts i t : (forall d, In (RBytes d) (resolver_of i 0 acts) -> is_bytes d) -> nth_error (sv_tasks (run_server dbg acts)) i = Some t ->
  (tk_ctl t = Ended -> Served dbg (client_of i 0 acts) (resolver_of i 0 acts) (tk_out t) (tk_sent t)) /\ (tk_ctl t <> Ended -> tk_out t = []).
Proof.
  intros B H. destruct (server_good dbg acts i t B H) as [I _]. unfold Inv in I. split.
  - intros E. rewrite E in I. specialize (I [] []). rewrite !app_nil_r in I. exact I.
  - intros E. destruct (tk_ctl t); [tauto | tauto | tauto | congruence].
Qed.

Lemma served_unique dbg cs rs o s o' s' : Served dbg cs rs o s -> Served dbg cs rs o' s' -> o = o' /\ s = s'.
Proof.
  intros A B. inversion A as [SA | r SA | n ty oc sn ou SA BA OA]; subst; inversion B as [SB | r' SB | n' ty' oc' sn' ou' SB BB OB]; subst; auto.
  - specialize (SA (fun _ _ => None)). rewrite SB in SA. discriminate.
  - specialize (SA (fun _ _ => None)). rewrite SB in SA. discriminate.
  - specialize (SA (fun _ _ => None)). rewrite SB in SA. discriminate.
  - specialize (SA (fun _ _ => None)). rewrite SB in SA. injection SA as ->. auto.
  - pose proof (SA (fun _ _ => None)) as S1. pose proof (SA (fun _ _ => Some ([], 0))) as S2. rewrite SB in S1, S2. unfold no_proof in S1. cbn in S1, S2. congruence.
  - specialize (SA (fun _ _ => None)). rewrite SB in SA. discriminate.
  - pose proof (SB (fun _ _ => None)) as S1. pose proof (SB (fun _ _ => Some ([], 0))) as S2. rewrite SA in S1, S2. unfold no_proof in S1. cbn in S1, S2. congruence.
  - specialize (SA (fun a b => Some (a, b))). rewrite (SB (fun a b => Some (a, b))) in SA. injection SA as -> ->. rewrite BA in BB. injection BB as -> ->. auto.
Qed.

Lemma server_isolated dbg acts acts' i t t' : (forall d, In (RBytes d) (resolver_of i 0 acts) -> is_bytes d) ->
  nth_error (sv_tasks (run_server dbg acts)) i = Some t -> nth_error (sv_tasks (run_server dbg acts')) i = Some t' ->
  client_of i 0 acts = client_of i 0 acts' -> resolver_of i 0 acts = resolver_of i 0 acts' -> tk_ctl t = Ended -> tk_ctl t' = Ended ->
  tk_out t = tk_out t' /\ tk_sent t = tk_sent t'.
Proof.
  intros B H H' C R E E'. eapply served_unique.
  - apply (server_served dbg acts i t B H), E.
  - rewrite C, R. apply (server_served dbg acts' i t'); [rewrite <- R; exact B | exact H' | exact E'].
Qed.

(** ** Progress *)
Fixpoint iter (dbg : bool) (n : nat) (t : task) : task := match n with O => t | Datatypes.S m => iter dbg m (poll dbg t) end.
Lemma iter_blocked dbg n : forall t, (left t <= n)%nat -> Blocked (iter dbg n t).
Proof.
  induction n as [| n IH]; intros t L; cbn [iter].
  - destruct (poll_left dbg t) as [X | X]; [exact X | lia].
  - destruct (poll_left dbg t) as [X | X]; [| apply IH; lia]. rewrite (blocked_poll dbg t X). clear -X. induction n as [| n IH]; cbn [iter]; [exact X |]. rewrite (blocked_poll dbg t X). exact IH.
Qed.
Lemma later_run dbg later : forall s i t, sv_up s = true -> ~ In AcceptFails later -> nth_error (sv_tasks s) i = Some t ->
  client_of i (List.length (sv_tasks s)) later = [] -> resolver_of i (List.length (sv_tasks s)) later = [] ->
  nth_error (sv_tasks (fold_left (act dbg) later s)) i = Some (iter dbg (polls i later) t).
Proof.
  induction later as [| a later IH]; intros s i t U N H C R; [exact H |]. cbn [fold_left]. unfold act at 2. rewrite U. cbn [negb].
  assert (LI : (i < List.length (sv_tasks s))%nat) by (apply nth_error_Some; congruence).
  assert (N' : ~ In AcceptFails later) by (intros X; apply N; right; exact X).
  destruct a as [| | j ev | j ev | j]; cbn [client_of resolver_of] in C, R.
  - set (s' := {| sv_up := true; sv_tasks := sv_tasks s ++ [new_task] |}).
    assert (LN : List.length (sv_tasks s') = Datatypes.S (List.length (sv_tasks s))) by (cbn; rewrite app_length; cbn; lia). rewrite <- LN in C, R.
    apply (IH s'); auto. cbn [s' sv_tasks]. rewrite nth_error_app1 by exact LI. exact H.
  - exfalso. apply N. left. reflexivity.
  - apply app_eq_nil in C as [C1 C2]. apply Nat.ltb_lt in LI. rewrite LI, Bool.andb_true_r in C1. destruct (Nat.eqb j i) eqn:E; [discriminate |].
    apply IH; cbn [on_task sv_up sv_tasks]; rewrite ?length_update; auto. rewrite nth_update, E. exact H.
  - apply app_eq_nil in R as [C1 C2]. apply Nat.ltb_lt in LI. rewrite LI, Bool.andb_true_r in C1. destruct (Nat.eqb j i) eqn:E; [discriminate |].
    apply IH; cbn [on_task sv_up sv_tasks]; rewrite ?length_update; auto. rewrite nth_update, E. exact H.
  - unfold polls. cbn [filter]. destruct (Nat.eqb j i) eqn:E; cbn [List.length iter];
      apply IH; cbn [on_task sv_up sv_tasks]; rewrite ?length_update; auto; rewrite nth_update, E; [rewrite H; reflexivity | exact H].
Qed.

Lemma asks_line cs n ty : Asks cs n ty -> exists line, FirstLine (first_4096 cs) line /\ AsksFor line n ty.
Proof.
  intros (buf & l & R & L & P). specialize (R []). rewrite app_nil_r in R.
  assert (S : serve (fun a b => Some (a, b)) cs = Some (Proof n ty)).
  { unfold serve. rewrite R. unfold handle_buf. rewrite L. unfold handle_request. rewrite P. reflexivity. }
  apply serve_sound in S as (line & a & b & F & A & E). injection E as -> ->. eauto.
Qed.

Lemma blocked_waits dbg cs rs t : bytes_rs rs -> Inv dbg cs rs t -> Blocked t -> tk_ctl t = Ended \/ Waits dbg cs rs.
Proof.
  intros B I K. unfold Inv in I. unfold Blocked in K. destruct (tk_ctl t) as [buf | n ty | b got |] eqn:C; [right | right | right | left; reflexivity].
  - destruct I as (O & S & R & L & HC & (pre & PE & NE & DE) & RR). rewrite K, app_nil_r in PE. subst pre. apply Waits_request; [exact NE | | rewrite DE; exact L].
    intros line F. apply first_line_crlf in F. apply has_crlf_false in HC. apply HC.
    assert (X : first_4096 cs = buf). { unfold first_4096. rewrite DE. apply firstn_all2. unfold len in L. lia. } rewrite X in F. exact F.
  - destruct I as (O & S & R & A). destruct (asks_line _ _ _ A) as (line & F & AF). eapply Waits_connect; [exact F | exact AF | congruence].
  - destruct I as (O & n & ty & pre & fuel & sents & tr & A & R & S & D & DR & AO & CE). destruct K as (W & RN & Q). destruct (asks_line _ _ _ A) as (line & F & AF).
    destruct (fuel_left _ _ _ _ _ _ _ _ _ _ _ B A R D W) as (f & ->). rewrite Q, app_nil_r in R.
    eapply (Waits_response dbg cs rs n ty line pre sents tr b got); [exact F | exact AF | exact R | exact DR | exact AO | exact W | exact CE | |].
    { assert (BG : is_bytes (List.concat [got])). { cbn. rewrite app_nil_r. rewrite R, <- (app_nil_r (map RBytes pre)) in B. apply pre_bytes in B. rewrite CE in B. apply is_bytes_app in B. tauto. }
      apply (read_response_none _ BG) in RN. cbn [List.concat] in RN. rewrite app_nil_r in RN. exact RN. } specialize (D []). rewrite app_nil_r in D. rewrite D. cbn [drive]. rewrite W, RN. reflexivity.
Qed.

Lemma split_of i later : forall acts k, ~ In AcceptFails acts ->
  client_of i k (acts ++ later) = client_of i k acts ++ client_of i (k + List.length (filter (fun a => match a with Accept => true | _ => false end) acts)) later /\
  resolver_of i k (acts ++ later) = resolver_of i k acts ++ resolver_of i (k + List.length (filter (fun a => match a with Accept => true | _ => false end) acts)) later.
Proof.
  induction acts as [| a acts IH]; intros k N; cbn [app client_of resolver_of filter List.length]; [rewrite Nat.add_0_r; auto |].
  assert (N' : ~ In AcceptFails acts) by (intros X; apply N; right; exact X).
  destruct a; cbn [List.length]; try (destruct (IH k N') as [-> ->]; rewrite ?app_assoc; auto; fail).
  - destruct (IH (Datatypes.S k) N') as [-> ->]. rewrite Nat.add_succ_r. auto.
  - exfalso. apply N. left. reflexivity.
Qed.
Lemma accepted_length dbg acts : forall s, sv_up s = true -> ~ In AcceptFails acts ->
  sv_up (fold_left (act dbg) acts s) = true /\ List.length (sv_tasks (fold_left (act dbg) acts s)) = (List.length (sv_tasks s) + List.length (filter (fun a => match a with Accept => true | _ => false end) acts))%nat.
Proof.
  induction acts as [| a acts IH]; intros s U N; cbn [fold_left filter List.length]; [rewrite Nat.add_0_r; auto |].
  assert (N' : ~ In AcceptFails acts) by (intros X; apply N; right; exact X). unfold act at 2 4. rewrite U. cbn [negb].
  destruct a; cbn [List.length].
  - destruct (IH {| sv_up := true; sv_tasks := sv_tasks s ++ [new_task] |} eq_refl N') as [-> ->]. cbn [sv_tasks]. rewrite app_length. cbn [List.length]. split; [reflexivity | lia].
  - exfalso. apply N. left. reflexivity.
  - match goal with |- context [fold_left _ acts ?s'] => destruct (IH s' U N') as [-> ->] end. cbn [on_task sv_tasks]. rewrite length_update. auto.
  - match goal with |- context [fold_left _ acts ?s'] => destruct (IH s' U N') as [-> ->] end. cbn [on_task sv_tasks]. rewrite length_update. auto.
  - match goal with |- context [fold_left _ acts ?s'] => destruct (IH s' U N') as [-> ->] end. cbn [on_task sv_tasks]. rewrite length_update. auto.
Qed.

(** C67: nobody else can hold up a connection. *)
Lemma server_progress dbg acts later i cs rs t0 : ~ In AcceptFails (acts ++ later) -> nth_error (sv_tasks (run_server dbg acts)) i = Some t0 ->
  client_of i 0 acts = cs -> client_of i 0 (acts ++ later) = cs -> resolver_of i 0 acts = rs -> resolver_of i 0 (acts ++ later) = rs ->
  (forall d, In (RBytes d) rs -> is_bytes d) -> (work cs rs <= polls i later)%nat ->
  exists t, nth_error (sv_tasks (run_server dbg (acts ++ later))) i = Some t /\ (tk_ctl t = Ended \/ Waits dbg cs rs).
Proof.
  intros N H C C' R R' B L.
  assert (NA : ~ In AcceptFails acts) by (intros X; apply N, in_app_iff; auto). assert (NL : ~ In AcceptFails later) by (intros X; apply N, in_app_iff; auto).
  destruct (split_of i later acts 0 NA) as [SC SR]. rewrite SC, C in C'. rewrite SR, R in R'.
  assert (ZC : forall x, cs ++ x = cs -> x = []) by (intros x X; apply (app_inv_head cs); rewrite app_nil_r; exact X).
  assert (ZR : forall x, rs ++ x = rs -> x = []) by (intros x X; apply (app_inv_head rs); rewrite app_nil_r; exact X).
  apply ZC in C'. apply ZR in R'. destruct (accepted_length dbg acts start eq_refl NA) as [U LN]. cbn [start sv_tasks List.length] in LN.
  rewrite <- LN in C', R'. fold (run_server dbg acts) in *.
  pose proof (later_run dbg later (run_server dbg acts) i t0 U NL H C' R') as F. unfold run_server. rewrite fold_left_app. fold (run_server dbg acts). rewrite F.
  eexists. split; [reflexivity |].
  destruct (server_good dbg acts i t0) as [I LE]; [rewrite R; exact B | exact H |]. rewrite C, R in *.
  assert (IT : forall k t, Inv dbg cs rs t -> Inv dbg cs rs (iter dbg k t)).
  { induction k as [| k IH]; intros t It; cbn [iter]; [exact It |]. apply IH, poll_inv; assumption. }
  apply blocked_waits; [exact B | apply IT, I | apply iter_blocked; lia].
Qed.

(** ** C66: end to end *)
Lemma serve_asked cs line n ty : ascii (first_4096 cs) -> FirstLine (first_4096 cs) line -> AsksFor line n ty ->
  forall prove, serve prove cs = Some (match prove n ty with Some (p, ttl) => Proof p ttl | None => no_proof end).
Proof.
  intros A F K prove. destruct (serve_line prove cs line F) as [-> | [C _]]; [| contradiction]. f_equal.
  destruct (prove n ty) as [[p ttl] |] eqn:P; [apply handle_proof; eauto | apply (handle_fail _ _ n ty); assumption].
Qed.
Lemma asked_served dbg cs rs line n ty out sent o : ascii (first_4096 cs) -> FirstLine (first_4096 cs) line -> AsksFor line n ty ->
  Served dbg cs rs out sent -> fst (built dbg rs n ty) = Ok o -> out = render (Proof (fst o) (snd o)) /\ sent = snd (built dbg rs n ty).
Proof.
  intros A F K S B. apply (served_unique dbg cs rs out sent _ _ S). destruct (built dbg rs n ty) as [o' s'] eqn:E. cbn [fst snd] in *. subst o'.
  eapply Served_asked; [apply (serve_asked cs line n ty A F K) | exact E | destruct o; reflexivity].
Qed.

Lemma proof_rendered p ttl : exists num age, Decimal (length_of p) num /\ Decimal ttl age /\ render (Proof p ttl) = http_message (proof_lines num age) p.
Proof.
  assert (S : serve (fun _ _ => Some (p, ttl)) [SData (bs "GET /dnssecproof?d=b.&t=a HTTP/1.0" ++ [13; 10])] = Some (Proof p ttl)) by (vm_compute; reflexivity).
  destruct (serve_headers _ _ _ S) as [E | (p' & ttl' & n & ty & num & age & E & D1 & D2 & R)].
  - exfalso. cbn [error_messages In] in E. repeat (destruct E as [E | E]; [discriminate E |]). exact E.
  - injection E as <- <-. exists num, age. auto.
Qed.

Lemma server_works e dbg zones answers n ty data resp line : AsksFor line n ty -> SortsNeeds e ->
  WellSigned e zones answers (FirstVouched e) -> Serves zones answers n ty data -> Answers data dbg n ty resp ->
  (forall m t rt, Asked data n ty m t -> In rt (data m t) -> wf_rr (fst rt)) -> (List.length zones <= 5)%nat ->
  Delivers e dbg zones answers n ty data resp line.
Proof.
  intros AF SN W SV HA HW HL. destruct (asks_valid _ _ _ AF) as (V & T & NT).
  pose proof (live_signers e zones answers n ty data W SV NT) as HK.
  destruct (live_built data dbg n ty resp _ V T HA HK (zones_needed _ _ _ _ W HL)) as (qs & sent & P & _ & Q & B & _). exists qs, sent. split; [exact P |]. split; [exact Q |].
  intros acts later i t0 segs rest over N H C R A F BY RE CE L.
  assert (BO : forall z, exists ttl, build_proof dbg 10 n ty (segs ++ z) = (Ok (flat_map (fun rt => write_rr (fst rt) (snd rt)) (flat_map (fun q => data (fst q) (snd q)) qs), ttl), sent) /\
    is_min ttl (map snd (flat_map (fun q => data (fst q) (snd q)) qs))).
  { intros z. apply (B (segs ++ z) (rest ++ List.concat z)). rewrite concat_app, CE, <- app_assoc. reflexivity. }
  destruct (server_progress dbg acts later i _ _ t0 N H eq_refl C eq_refl R BY L) as (t & HT & E).
  assert (ET : tk_ctl t = Ended).
  { destruct E as [E | E]; [exact E |]. exfalso. destruct E as [NS NF _ | n' ty' l F' K' Z | n' ty' l segs' sent' tr b rest' F' K' Z _ _ _ _ _ BP].
    - exact (NF _ F).
    - rewrite RE in Z. discriminate.
    - rewrite (first_line_unique _ _ _ F' F) in K'. destruct (asks_unique _ _ _ _ _ K' AF) as [-> ->]. rewrite RE in Z. injection Z as Z.
      assert (S' : segs' = segs ++ segments over).
      { rewrite <- segments_app, Z. rewrite <- (app_nil_r (map RBytes segs')), segments_app. cbn. rewrite app_nil_r. reflexivity. }
      destruct (BO (segments over)) as (ttl & X & _). rewrite <- S', BP in X. discriminate. }
  destruct (BO (segments over)) as (ttl & BP & M).
  destruct (server_served dbg (acts ++ later) i t) as [S _]; [rewrite R; exact BY | exact HT |]. specialize (S ET). rewrite C, R in S.
  assert (BU : built dbg (resolver_of i 0 acts) n ty = (Ok (flat_map (fun rt => write_rr (fst rt) (snd rt)) (flat_map (fun q => data (fst q) (snd q)) qs), ttl), List.concat sent)).
  { rewrite RE. unfold built. rewrite segments_app, BP. reflexivity. }
  destruct (asked_served dbg _ _ line n ty _ _ (flat_map (fun rt => write_rr (fst rt) (snd rt)) (flat_map (fun q => data (fst q) (snd q)) qs), ttl) A F AF S) as [O SS]; [rewrite BU; reflexivity |].
  cbn [fst snd] in O. rewrite BU in SS. cbn [snd] in SS.
  destruct (proof_rendered (flat_map (fun rt => write_rr (fst rt) (snd rt)) (flat_map (fun q => data (fst q) (snd q)) qs)) ttl) as (num & age & D1 & D2 & RD).
  destruct (live_checked e dbg zones answers n ty data resp qs NT SN W SV HA HW P) as (fuel & v & EV & RV & PS).
  exists t, (flat_map (fun rt => write_rr (fst rt) (snd rt)) (flat_map (fun q => data (fst q) (snd q)) qs)), ttl, num, age, v.
  split; [exact HT |]. split; [exact ET |]. split; [exact SS |]. split; [rewrite O; exact RD |]. split; [exact D1 |]. split; [exact D2 |]. split; [exact M |]. split; [| exact RV].
  intros dbg'. exists (tree_inp data qs), fuel. auto.
Qed.
