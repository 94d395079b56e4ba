(** Proofs about the server: the bytes of one connection are a function of what reaches it. *)
From Verif Require Import Base BaseP NameM NameSpec NameP WireM RRM SerM HeldP RecSpec QueryM QuerySpec QueryP QueryP4 JsonM HttpM HttpSpec HttpP ServerM ServerSpec.
From Coq Require Import String Lia List PeanoNat.
Import ListNotations.
Local Open Scope N_scope.

(** ** The driver does not see segment boundaries *)
Lemma rr_more segs segs' z q s : List.concat segs' = List.concat segs ++ z -> read_response segs = Some (q, s) ->
  exists s', read_response segs' = Some (q, s') /\ List.concat s' = List.concat s ++ z.
Proof.
  intros E H. unfold read_response in *. destruct (read_exact 2 segs) as [[lb s1] |] eqn:E1; [| discriminate].
  apply read_exact_some in E1 as [E1 L1].
  destruct (read_exact_app 2 segs' lb (List.concat s1 ++ z)) as (t1 & R1 & C1); [rewrite E, E1, app_assoc; reflexivity | exact L1 |].
  rewrite R1. destruct (read_exact (nth 0 lb 0 * 256 + nth 1 lb 0) s1) as [[d s2] |] eqn:E2; [| discriminate]. injection H as <- <-.
  apply read_exact_some in E2 as [E2 L2].
  destruct (read_exact_app (nth 0 lb 0 * 256 + nth 1 lb 0) t1 d (List.concat s2 ++ z)) as (t2 & R2 & C2); [rewrite C1, E2, app_assoc; reflexivity | exact L2 |].
  rewrite R2. eauto.
Qed.
Lemma rr_none segs segs' : List.concat segs' = List.concat segs -> read_response segs = None -> read_response segs' = None.
Proof.
  intros E H. destruct (read_response segs') as [[q s] |] eqn:R; [| reflexivity].
  destruct (rr_more segs' segs [] q s) as (x & R' & _); [rewrite app_nil_r; auto | exact R |]. congruence.
Qed.
Lemma drive_concat dbg fuel : forall b segs segs' sent, List.concat segs' = List.concat segs -> drive dbg fuel b segs' sent = drive dbg fuel b segs sent.
Proof.
  induction fuel as [| fuel IH]; intros b segs segs' sent E; cbn [drive]; [reflexivity |].
  destruct (awaiting_responses b); [| reflexivity]. destruct (read_response segs) as [[q s] |] eqn:R.
  - destruct (rr_more segs segs' [] q s) as (x & -> & C); [rewrite app_nil_r; exact E | exact R |].
    rewrite app_nil_r in C. destruct (process_response dbg b (qb_deref q)) as [[] b']; auto.
  - rewrite (rr_none _ _ E R). reflexivity.
Qed.
Lemma rr_shrinks got q s : read_response [got] = Some (q, s) -> (List.length (List.concat s) + 2 <= List.length got)%nat.
Proof.
  unfold read_response. destruct (read_exact 2 [got]) as [[lb s1] |] eqn:E1; [| discriminate]. apply read_exact_some in E1 as [E1 L1].
  destruct (read_exact _ s1) as [[d s2] |] eqn:E2; [| discriminate]. intros H. injection H as _ <-. apply read_exact_some in E2 as [E2 _].
  cbn [List.concat] in E1. rewrite app_nil_r in E1. rewrite E1, E2, !app_length. unfold len in L1. lia.
Qed.

(** ** Requests *)
Lemma parse_asks line n ty : parse_request line = inr (n, ty) -> AsksFor line n ty.
Proof.
  intros H. assert (P : handle_request (fun a b => Some (a, b)) line = Proof n ty) by (unfold handle_request; rewrite H; reflexivity).
  apply handle_proof in P as (a & b & A & E). injection E as -> ->. exact A.
Qed.
Lemma asks_valid line n ty : AsksFor line n ty -> name_try_from n = Some n /\ ty < 65536 /\ ty <> 43 /\ ty <> 48.
Proof.
  intros (d & t & _ & A & -> & T). split.
  - apply (name_reparse d). apply name_try_from_spec. auto.
  - destruct T as [[_ ->] | [[_ ->] | [[_ ->] | [_ ->]]]]; repeat split; try discriminate; reflexivity.
Qed.

(** ** The invariant *)
Definition Asks (cs : list sock_event) (n : list N) (ty : N) : Prop :=
  exists buf l, (forall x, read_req (cs ++ x) [] = RRequest buf) /\ request_line buf = Some l /\ parse_request l = inr (n, ty).

Definition Inv (dbg : bool) (cs : list sock_event) (rs : list res_event) (t : task) : Prop :=
  match tk_ctl t with
  | Reading buf => tk_out t = [] /\ tk_sent t = [] /\ tk_resolver t = rs /\ len buf < 4096 /\ has_crlf buf = false /\
      (exists pre, cs = pre ++ tk_client t /\ ~ In SError pre /\ delivered pre = buf) /\
      (forall x, read_req (cs ++ x) [] = read_req (tk_client t ++ x) buf)
  | Connecting n ty => tk_out t = [] /\ tk_sent t = [] /\ tk_resolver t = rs /\ Asks cs n ty
  | Proving b got => tk_out t = [] /\ exists n ty pre fuel sents tr, Asks cs n ty /\ rs = RConnected :: map RBytes pre ++ tk_resolver t /\
      tk_sent t = List.concat sents /\ (forall segs, build_proof dbg 10 n ty (pre ++ segs) = drive dbg fuel b (got :: segs) sents) /\
      Driven dbg builder_init tr b /\ Forall (fun c => is_ok (snd c) = true) tr /\ List.concat pre = flat_map frame (map fst tr) ++ got
  | Ended => forall x y, Served dbg (cs ++ x) (rs ++ y) (tk_out t) (tk_sent t)
  end.

Definition bytes_rs (rs : list res_event) : Prop := forall d, In (RBytes d) rs -> is_bytes d.
Lemma segments_app pre z : segments (map RBytes pre ++ z) = pre ++ segments z.
Proof. induction pre as [| d pre IH]; [reflexivity |]. cbn. rewrite IH. reflexivity. Qed.

Lemma asks_served dbg cs rs n ty x y o sent out : Asks cs n ty -> built dbg (rs ++ y) n ty = (o, sent) ->
  out = match o with Ok (p, ttl) => render (Proof p ttl) | Err _ => render no_proof | _ => [] end -> Served dbg (cs ++ x) (rs ++ y) out sent.
Proof.
  intros (buf & l & R & L & P) B ->. eapply Served_asked; [| exact B | reflexivity].
  intros prove. unfold serve. rewrite R. unfold handle_buf. rewrite L. unfold handle_request. rewrite P. unfold proof_reply. destruct (prove n ty) as [[] |]; reflexivity.
Qed.
Lemma error_served dbg cs rs r x : read_req (cs ++ x) [] = RTooLarge /\ r = bad "Request Too Large" \/
  (exists buf, read_req (cs ++ x) [] = RRequest buf /\ (request_line buf = None /\ r = bad "Bad Request" \/ exists l, request_line buf = Some l /\ parse_request l = inl r)) ->
  Served dbg (cs ++ x) rs (render r) [].
Proof.
  intros H. apply Served_error. intros prove. unfold serve. destruct H as [[-> ->] | (buf & -> & [[L ->] | (l & L & P)])]; [reflexivity | |];
    unfold handle_buf; rewrite L; [reflexivity |]. unfold handle_request. rewrite P. reflexivity.
Qed.

Lemma asks_name cs n ty : Asks cs n ty -> name_try_from n = Some n /\ ty < 65536.
Proof. intros (buf & l & _ & _ & P). apply parse_asks, asks_valid in P. tauto. Qed.

Lemma pre_bytes pre rq : bytes_rs (RConnected :: map RBytes pre ++ rq) -> is_bytes (List.concat pre).
Proof.
  intros B. apply Forall_forall. intros c Hc. apply in_concat in Hc as (d & Hd & Hc). assert (I : is_bytes d) by (apply B; right; apply in_app_iff; left; apply in_map, Hd).
  unfold is_bytes in I. rewrite Forall_forall in I. auto.
Qed.
Lemma fuel_left dbg cs rs t n ty pre fuel sents b got : bytes_rs rs -> Asks cs n ty -> rs = RConnected :: map RBytes pre ++ tk_resolver t ->
  (forall segs, build_proof dbg 10 n ty (pre ++ segs) = drive dbg fuel b (got :: segs) sents) -> awaiting_responses b = true -> exists f, fuel = S f.
Proof.
  intros B A -> D W. destruct fuel as [| f]; [| eauto]. exfalso. destruct (asks_name _ _ _ A) as [V T].
  assert (BB : is_bytes (List.concat pre)) by (eapply pre_bytes, B).
  pose proof (build_terminates dbg n ty pre V T BB) as NL. specialize (D []). rewrite app_nil_r in D. rewrite D in NL. cbn [drive] in NL. rewrite W in NL. exact (NL eq_refl).
Qed.

Lemma poll_client dbg cs rs t buf ev r : Inv dbg cs rs t -> tk_ctl t = Reading buf -> tk_client t = ev :: r -> Inv dbg cs rs (on_client (pop_client t) buf ev).
Proof.
  intros I C Q. unfold Inv in I. rewrite C, Q in I. destruct I as (O & S & R & L & HC & (pre & PE & NE & DE) & RR).
  assert (NF : (len buf =? 4096) = false) by (apply N.eqb_neq; lia).
  assert (KEEP : delivered (pre ++ [ev]) = buf -> ev <> SError -> (forall x, read_req ((ev :: r) ++ x) buf = read_req (r ++ x) buf) -> Inv dbg cs rs (set_ctl (pop_client t) (Reading buf))).
  { intros D NS K. unfold Inv. cbn [tk_ctl set_ctl tk_out tk_sent tk_resolver tk_client pop_client]. rewrite Q. cbn [tl]. repeat (split; [assumption |]). split.
    - exists (pre ++ [ev]). split; [rewrite <- app_assoc; exact PE |]. split; [| exact D]. intros X. apply in_app_iff in X as [X | [X | []]]; auto.
    - intros x. rewrite RR. apply K. }
  assert (DA : forall ev, delivered (pre ++ [ev]) = buf ++ delivered [ev]).
  { intros ev0. rewrite <- DE. clear -NE. induction pre as [| [d | |] p IH]; cbn [app delivered] in *; [reflexivity | | |].
    - rewrite <- app_assoc. f_equal. apply IH. intros X. apply NE. right. exact X.
    - apply IH. intros X. apply NE. right. exact X.
    - exfalso. apply NE. left. reflexivity. }
  assert (SC : set_ctl (pop_client t) (Reading buf) = pop_client t).
  { unfold set_ctl, pop_client. cbn. rewrite C. reflexivity. }
  destruct ev as [[| c d] | |]; cbn [on_client].
  - rewrite <- SC. apply KEEP; [rewrite DA; cbn; apply app_nil_r | discriminate |]. intros x. cbn [app read_req]. rewrite NF. reflexivity.
  - remember (c :: d) as dd eqn:DD.
    assert (STEP : forall x, read_req ((SData dd :: r) ++ x) buf = let buf' := buf ++ takeN (4096 - len buf) dd in
      if has_crlf buf' then RRequest buf' else if len dd <=? 4096 - len buf then read_req (r ++ x) buf' else RTooLarge).
    { intros x. cbn [app read_req]. rewrite NF, DD. reflexivity. }
    cbn zeta in STEP. set (buf' := buf ++ takeN (4096 - len buf) dd) in *. destruct (has_crlf buf') eqn:HC'.
    + assert (RR' : forall x, read_req (cs ++ x) [] = RRequest buf') by (intros x; rewrite RR, STEP; reflexivity).
      unfold on_line. destruct (request_line buf') as [l |] eqn:RL.
      * destruct (parse_request l) as [rep | [n ty]] eqn:PR.
        -- unfold Inv. cbn [tk_ctl answer tk_out tk_sent pop_client]. rewrite O, S. cbn [app]. intros x y. apply error_served. right. eauto 6.
        -- unfold Inv. cbn [tk_ctl set_ctl tk_out tk_sent pop_client tk_resolver]. repeat (split; [assumption |]). exists buf', l. auto.
      * unfold Inv. cbn [tk_ctl answer tk_out tk_sent pop_client]. rewrite O, S. cbn [app]. intros x y. apply error_served. right. eauto 6.
    + destruct (N.eqb_spec (len buf') 4096) as [E | E].
      * unfold Inv. cbn [tk_ctl answer tk_out tk_sent pop_client]. rewrite O, S. cbn [app]. intros x y. apply error_served. left. split; [| reflexivity].
        rewrite RR, STEP. destruct (len dd <=? 4096 - len buf); [| reflexivity].
        destruct (r ++ x); cbn [read_req]; apply N.eqb_eq in E; rewrite E; reflexivity.
      * assert (LD : len dd <= 4096 - len buf).
        { destruct (N.leb_spec (len dd) (4096 - len buf)) as [X | X]; [exact X |]. exfalso. apply E. unfold buf'. rewrite len_app, len_takeN by lia. lia. }
        assert (BE : buf' = buf ++ dd) by (unfold buf'; rewrite takeN_all by exact LD; reflexivity).
        unfold Inv. cbn [tk_ctl set_ctl tk_out tk_sent tk_resolver tk_client pop_client]. rewrite Q. cbn [tl]. repeat (split; [assumption |]).
        split; [rewrite BE, len_app in *; lia |]. split; [exact HC' |]. split.
        -- exists (pre ++ [SData dd]). split; [rewrite <- app_assoc; exact PE |]. split.
           ++ intros X. apply in_app_iff in X as [X | [X | []]]; [auto | discriminate].
           ++ rewrite DA. cbn. rewrite app_nil_r. auto.
        -- intros x. rewrite RR, STEP. apply N.leb_le in LD. rewrite LD. reflexivity.
  - rewrite <- SC. apply KEEP; [rewrite DA; cbn; apply app_nil_r | discriminate |]. intros x. cbn [app read_req]. rewrite NF. reflexivity.
  - unfold Inv. cbn [tk_ctl set_ctl tk_out tk_sent pop_client]. rewrite O, S. intros x y. apply Served_silent. intros prove. unfold serve. rewrite RR. cbn [app read_req]. rewrite NF. reflexivity.
Qed.

(** The end of a proof. *)
Lemma result_inv dbg cs rs t n ty o : tk_out t = [] -> Asks cs n ty -> (forall y, built dbg (rs ++ y) n ty = (o, tk_sent t)) -> Inv dbg cs rs (on_result t o).
Proof.
  intros O A B. destruct o as [[p ttl] | [] | |]; unfold Inv; cbn [tk_ctl on_result answer set_ctl tk_out tk_sent]; rewrite O; cbn [app]; intros x y;
    (eapply asks_served; [exact A | apply B | reflexivity]).
Qed.

Lemma poll_connect dbg cs rs t n ty ev r : Inv dbg cs rs t -> tk_ctl t = Connecting n ty -> tk_resolver t = ev :: r -> Inv dbg cs rs (on_connect (pop_resolver t) n ty ev).
Proof.
  intros I C Q. unfold Inv in I. rewrite C, Q in I. destruct I as (O & S & R & A). subst rs.
  assert (BAD : ev <> RConnected -> Inv dbg cs (ev :: r) (on_result (pop_resolver t) (Err tt))).
  { intros E. eapply result_inv; [exact O | exact A |]. intros y. cbn [app built pop_resolver tk_sent]. rewrite S. destruct ev; [contradiction | reflexivity | reflexivity]. }
  destruct ev; cbn [on_connect]; try (apply BAD; discriminate).
  destruct (asks_name _ _ _ A) as [V T]. destruct (query_built n ty V T) as (q & BN & _). rewrite BN.
  unfold Inv. cbn [tk_ctl set_ctl send tk_out tk_sent tk_resolver pop_resolver]. split; [exact O |].
  exists n, ty, [], 10%nat, [send_query (qb_deref q)], []. split; [exact A |]. split; [rewrite Q; reflexivity |]. split; [rewrite S; cbn; rewrite app_nil_r; reflexivity |].
  split; [| split; [constructor | split; [constructor | reflexivity]]].
  intros segs. cbn [app]. unfold build_proof. rewrite BN. apply drive_concat. reflexivity.
Qed.

Lemma poll_inv dbg cs rs t : bytes_rs rs -> Inv dbg cs rs t -> Inv dbg cs rs (poll dbg t).
Proof.
  intros BR I. unfold poll. destruct (tk_ctl t) as [buf | n ty | b got |] eqn:C.
  - destruct (tk_client t) as [| ev r] eqn:Q; [exact I |]. eapply poll_client; eassumption.
  - destruct (tk_resolver t) as [| ev r] eqn:Q; [exact I |]. eapply poll_connect; eassumption.
  - pose proof I as I0. unfold Inv in I. rewrite C in I. destruct I as (O & n & ty & pre & fuel & sents & tr & A & R & S & D & DR & AO & CE).
    assert (BU : forall y, built dbg (rs ++ y) n ty = (fst (build_proof dbg 10 n ty (pre ++ segments (tk_resolver t ++ y))), List.concat (snd (build_proof dbg 10 n ty (pre ++ segments (tk_resolver t ++ y)))))).
    { intros y. rewrite R. cbn [app built]. rewrite <- app_assoc, segments_app. reflexivity. }
    destruct (awaiting_responses b) eqn:W.
    + destruct (fuel_left _ _ _ _ _ _ _ _ _ _ _ BR A R D W) as (f & ->).
      destruct (read_response [got]) as [[q s] |] eqn:RQ.
      * assert (NX : forall segs, exists s', read_response (got :: segs) = Some (q, s') /\ List.concat s' = List.concat s ++ List.concat segs).
        { intros segs. apply (rr_more [got]); [cbn; rewrite app_nil_r; reflexivity | exact RQ]. }
        assert (STOP : forall o, (forall segs, drive dbg (Datatypes.S f) b (got :: segs) sents = (o, sents)) -> Inv dbg cs rs (on_result t o)).
        { intros o DO. eapply result_inv; [exact O | exact A |]. intros y. rewrite BU, D, DO, S. reflexivity. }
        destruct (process_response dbg b (qb_deref q)) as [o b'] eqn:P. destruct o as [qs | u | |].
        -- unfold Inv. cbn [tk_ctl set_ctl send tk_out tk_sent tk_resolver]. split; [exact O |].
           exists n, ty, pre, f, (sents ++ map (fun q => send_query (qb_deref q)) qs), (tr ++ [(qb_deref q, Ok qs)]). split; [exact A |]. split; [exact R |]. split; [rewrite S, concat_app; reflexivity |].
           split; [| split; [eapply Driven_snoc; [exact DR | exact W | exact P | discriminate | discriminate] | split; [apply Forall_app; auto |]]].
           2:{ assert (BG : is_bytes (List.concat [got])). { cbn. rewrite app_nil_r. rewrite R in BR. apply pre_bytes in BR. rewrite CE in BR. apply is_bytes_app in BR. tauto. }
               destruct (read_response_some _ _ _ BG RQ) as [E _]. cbn [List.concat] in E. rewrite app_nil_r in E. rewrite CE, E, map_app, flat_map_app. cbn [map fst flat_map]. rewrite app_nil_r, <- app_assoc. reflexivity. }
           intros segs. rewrite D. cbn [drive]. rewrite W. destruct (NX segs) as (s' & -> & E). rewrite P. apply drive_concat. exact E.
        -- destruct u. apply STOP. intros segs. cbn [drive]. rewrite W. destruct (NX segs) as (s' & -> & E). rewrite P. reflexivity.
        -- apply STOP. intros segs. cbn [drive]. rewrite W. destruct (NX segs) as (s' & -> & E). rewrite P. reflexivity.
        -- apply STOP. intros segs. cbn [drive]. rewrite W. destruct (NX segs) as (s' & -> & E). rewrite P. reflexivity.
      * destruct (tk_resolver t) as [| ev r] eqn:Q; [exact I0 |].
        assert (BAD : (forall d, ev <> RBytes d) -> Inv dbg cs rs (on_result (pop_resolver t) (Err tt))).
        { intros E. eapply result_inv; [exact O | exact A |]. intros y. rewrite BU. replace (segments ((ev :: r) ++ y)) with (@nil (list N)) by (destruct ev; [reflexivity | exfalso; eapply E; reflexivity | reflexivity]).
          rewrite D. cbn [drive]. rewrite W, RQ. cbn [fst snd pop_resolver tk_sent]. rewrite S. reflexivity. }
        destruct ev as [| d |]; [apply BAD; discriminate | | apply BAD; discriminate].
        unfold Inv. cbn [tk_ctl set_ctl tk_out tk_sent tk_resolver pop_resolver]. split; [exact O |]. exists n, ty, (pre ++ [d]), (Datatypes.S f), sents, tr.
        split; [exact A |]. split; [rewrite Q, map_app, <- app_assoc; exact R |]. split; [exact S |].
        split; [| split; [exact DR | split; [exact AO | rewrite concat_app, CE; cbn; rewrite app_nil_r, app_assoc; reflexivity]]]. intros segs. rewrite <- app_assoc. cbn [app]. rewrite D. apply drive_concat. cbn. rewrite app_assoc. reflexivity.
    + eapply result_inv; [exact O | exact A |]. intros y. rewrite BU, D. replace (drive dbg fuel b (got :: segments (tk_resolver t ++ y)) sents) with (finish_proof b, sents).
      * rewrite S. reflexivity.
      * destruct fuel; cbn [drive]; rewrite W; reflexivity.
  - exact I.
Qed.

Lemma asks_ext cs n ty x : Asks cs n ty -> Asks (cs ++ x) n ty.
Proof. intros (buf & l & R & H). exists buf, l. split; [| exact H]. intros y. rewrite <- app_assoc. apply R. Qed.
Lemma client_inv dbg cs rs t ev : Inv dbg cs rs t ->
  Inv dbg (cs ++ [ev]) rs {| tk_ctl := tk_ctl t; tk_client := tk_client t ++ [ev]; tk_resolver := tk_resolver t; tk_out := tk_out t; tk_sent := tk_sent t |}.
Proof.
  unfold Inv. cbn [tk_ctl tk_client tk_resolver tk_out tk_sent]. destruct (tk_ctl t) as [buf | n ty | b got |].
  - intros (O & S & R & L & HC & (pre & PE & NE & DE) & RR). repeat (split; [assumption |]). split.
    + exists pre. rewrite PE, app_assoc. auto.
    + intros x. rewrite <- !app_assoc. apply RR.
  - intros (O & S & R & A). repeat (split; [assumption |]). apply asks_ext, A.
  - intros (O & n & ty & pre & fuel & sents & tr & A & H). split; [exact O |]. exists n, ty, pre, fuel, sents, tr. split; [apply asks_ext, A | exact H].
  - intros H x y. rewrite <- app_assoc. apply H.
Qed.
Lemma resolver_inv dbg cs rs t ev : Inv dbg cs rs t ->
  Inv dbg cs (rs ++ [ev]) {| tk_ctl := tk_ctl t; tk_client := tk_client t; tk_resolver := tk_resolver t ++ [ev]; tk_out := tk_out t; tk_sent := tk_sent t |}.
Proof.
  unfold Inv. cbn [tk_ctl tk_client tk_resolver tk_out tk_sent]. destruct (tk_ctl t) as [buf | n ty | b got |].
  - intros (O & S & R & H). repeat (split; [assumption |]). split; [rewrite R; reflexivity | exact H].
  - intros (O & S & R & A). repeat (split; [assumption |]). split; [rewrite R; reflexivity | exact A].
  - intros (O & n & ty & pre & fuel & sents & tr & A & R & H). split; [exact O |]. exists n, ty, pre, fuel, sents, tr. split; [exact A |]. split; [| exact H]. rewrite R. cbn [app]. rewrite <- app_assoc. reflexivity.
  - intros H x y. rewrite <- app_assoc. apply H.
Qed.
Lemma new_inv dbg : Inv dbg [] [] new_task.
Proof.
  unfold Inv. cbn. repeat split. exists []. repeat split. intros [].
Qed.

(** ** Work *)
Definition left (t : task) : nat :=
  match tk_ctl t with
  | Ended => 0
  | Reading _ => 3 + List.length (tk_client t) + list_sum (map res_work (tk_resolver t))
  | Connecting _ _ => 2 + list_sum (map res_work (tk_resolver t))
  | Proving _ got => 1 + List.length got + list_sum (map res_work (tk_resolver t))
  end.
Definition Blocked (t : task) : Prop :=
  match tk_ctl t with
  | Ended => True
  | Reading _ => tk_client t = []
  | Connecting _ _ => tk_resolver t = []
  | Proving b got => awaiting_responses b = true /\ read_response [got] = None /\ tk_resolver t = []
  end.
Lemma blocked_poll dbg t : Blocked t -> poll dbg t = t.
Proof.
  unfold Blocked, poll. destruct (tk_ctl t); [intros -> | intros -> | intros (-> & -> & ->) |]; reflexivity.
Qed.
Lemma result_left t o : left (on_result t o) = 0%nat.
Proof. destruct o as [[]| | |]; reflexivity. Qed.
Lemma poll_left dbg t : Blocked t \/ (left (poll dbg t) < left t)%nat.
Proof.
  unfold Blocked, poll, left at 2. destruct (tk_ctl t) as [buf | n ty | b got |] eqn:C; [| | | left; exact I].
  - destruct (tk_client t) as [| ev r] eqn:Q; [left; reflexivity | right].
    assert (K : forall c, match c with Reading _ => True | Connecting _ _ => True | Ended => True | _ => False end -> (left (set_ctl (pop_client t) c) < 3 + List.length (ev :: r) + list_sum (map res_work (tk_resolver t)))%nat).
    { intros c Hc. destruct c; try contradiction; cbn [left set_ctl tk_ctl tk_client pop_client tk_resolver List.length]; try rewrite Q; cbn [tl]; lia. }
    assert (SC : set_ctl (pop_client t) (Reading buf) = pop_client t) by (unfold set_ctl, pop_client; cbn; rewrite C; reflexivity).
    destruct ev as [[| c d] | |]; cbn [on_client]; try (rewrite <- SC; apply K; exact I); try (apply K; exact I).
    destruct (has_crlf _); [unfold on_line; destruct (request_line _) as [l |]; [destruct (parse_request l) as [| []] |] | destruct (_ =? 4096)]; try (apply K; exact I); cbn [left answer tk_ctl List.length]; lia.
  - destruct (tk_resolver t) as [| ev r] eqn:Q; [left; reflexivity | right]. destruct ev as [| d |]; cbn [on_connect]; rewrite ?result_left; try (cbn; lia).
    destruct (builder_new n ty) as [[b q] | | |]; rewrite ?result_left; try (cbn; lia). cbn [left set_ctl send tk_ctl tk_resolver pop_resolver List.length]. rewrite Q. cbn [tl map res_work list_sum fold_right]. unfold list_sum. cbn. lia.
  - destruct (awaiting_responses b); [| right; rewrite result_left; lia]. destruct (read_response [got]) as [[q s] |] eqn:RQ.
    + right. apply rr_shrinks in RQ. destruct (process_response dbg b (qb_deref q)) as [[] b']; rewrite ?result_left; try lia. cbn [left set_ctl send tk_ctl tk_resolver]. lia.
    + destruct (tk_resolver t) as [| ev r] eqn:Q; [left; auto | right]. destruct ev as [| d |]; rewrite ?result_left; try (cbn; lia).
      cbn [left set_ctl tk_ctl tk_resolver pop_resolver]. rewrite Q, app_length. cbn [tl map res_work]. unfold list_sum. cbn. lia.
Qed.
