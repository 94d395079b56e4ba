(** Witnesses for Prop_Shown. *)
From Verif Require Import Base BaseP NameM NameSpec WireM RRM SerM RecSpec RecP2 SignedP ValSpec ValM OrderSpec QueryM QuerySpec AcceptSpec ValW OrderW JsonM JsonSpec JsonP JsonP5 SeenSpec SeenP SeenW WasmM WasmSpec DohM DohSpec DohP DohP2 DohP3 LiveSpec LiveW LiveW2 QueryW AcceptW MergeW WasmW ArriveSpec ArriveP ArriveP2 ArriveW BothP BothW ShownP.
From Coq Require Import String Lia List PeanoNat Permutation.
Import ListNotations.
Local Open Scope N_scope.

(** The resolver of ArriveW whose signatures over the DNSKEYs of the root are in two answers, over HTTPS. *)
Definition zo_fetch (i : nat) (u : list N) : fetched :=
  Body match find (fun p => bytes_eqb (doh_url bo_end (fst p)) u) z_table with Some p => snd p | None => [] end.
Lemma zo_serves i q u : GetUrl bo_end q u -> zo_fetch i u = Body (z_answer q).
Proof.
  intros G. unfold zo_fetch, z_answer, table. do 1 f_equal. rewrite (find_same _ (fun p => bytes_eqb (fst p) q)); [reflexivity |]. intros p I. apply url_same; [exact G |].
  assert (H : forallb (fun p => bytes_ok (fst p)) z_table = true) by (vm_compute; reflexivity). rewrite forallb_forall in H. apply is_bytes_ok, H, I.
Qed.
Lemma zo_bytes i u m : zo_fetch i u = Body m -> is_bytes m.
Proof.
  intros H. assert (E : m = match find (fun p => bytes_eqb (doh_url bo_end (fst p)) u) z_table with Some p => snd p | None => [] end) by (apply (f_equal (fun f => match f with Body x => x | _ => [] end)) in H; symmetry; exact H).
  rewrite E. clear. assert (H : forallb (fun p => bytes_ok (snd p)) z_table = true) by (vm_compute; reflexivity). revert H. generalize z_table as t. intros t H.
  destruct (find _ t) as [p |] eqn:E; [| constructor]. apply find_some in E as [I _]. rewrite forallb_forall in H. apply is_bytes_ok, H, I.
Qed.
Lemma zo_answers q : is_bytes (z_answer q) /\ length_of (z_answer q) < 65535.
Proof.
  split; [apply z_bytes |]. unfold z_answer, table. assert (H : forallb (fun p => length_of (snd p) <? 65535) z_table = true) by (vm_compute; reflexivity). revert H. generalize z_table as t. intros t H.
  destruct (find _ t) as [p |] eqn:E; [| reflexivity]. apply find_some in E as [I _]. rewrite forallb_forall in H. apply N.ltb_lt. exact (H _ I).
Qed.
Lemma zo_lookup : fst (lookup_doh toy_env false 10 Some [] zo_fetch bo_end 11 (bs "X.a") (TyText (bs "A"))) = JText (error_json Invalid).
Proof. vm_compute. reflexivity. Qed.
Lemma only_xa_ok o : only_xa o = true -> exists v, o = Ok v /\ vr_rrs v = [w_a "x.a."].
Proof.
  unfold only_xa. destruct o as [v | | |]; try discriminate. destruct (vr_rrs v) as [| r [| r' l]] eqn:E; try discriminate. intros H. apply rr_eqb_eq in H as ->. exists v. auto.
Qed.
Lemma xa_no_backslash : Forall no_backslash [w_a "x.a."].
Proof.
  constructor; [| constructor]. intros k s I. assert (C : forallb (fun f => match snd f with FText s => forallb (fun c => negb (c =? 92)) s | _ => true end) (fields (w_a "x.a.")) = true) by (vm_compute; reflexivity).
  rewrite forallb_forall in C. apply C in I. cbn [snd] in I. rewrite forallb_forall in I. intros J. apply I in J. discriminate J.
Qed.
Lemma verdict_parts e p : only_xa (y_verdict e p) = true -> exists rs v, parse_rr_stream false p = Ok rs /\ verify_rr_stream e false 10 rs = Ok v /\ vr_rrs v = [w_a "x.a."].
Proof.
  intros H. apply only_xa_ok in H as (v & H & E). unfold y_verdict in H. destruct (parse_rr_stream false p) as [rs | | |]; try discriminate H. exists rs, v. auto.
Qed.

(** Without [KeysTogether]: in one order the proof verifies, but not in the order in which the page asks. *)
Lemma shown_refuted : ~ (forall e reparse trap (fetch : nat -> list N -> fetched) endpoint answer domain typ ty n b0 q0, (forall q, is_bytes (answer q) /\ length_of (answer q) < 65535) ->
  (forall i q u, GetUrl endpoint q u -> fetch i u = Body (answer q)) -> (forall i u m, fetch i u = Body m -> is_bytes m) ->
  TypeName typ ty -> name_try_from (completed domain) = Some n -> builder_new n ty = Ok (b0, q0) ->
  forall order b p ttl rs fuel v, Arrive false answer b0 [qb_deref q0] order b [] -> finish_proof b = Ok (p, ttl) ->
  (forall items, Brings false answer order items -> Forall wf_rr (map fst items) /\
    (forall s, In (RR_RRSig s) (map fst items) -> ~ EmptyMaxLabels (map fst items) s) /\ TwoParams e (map fst items) /\ OneZone e (map fst items)) -> SortsNeeds e ->
  parse_rr_stream false p = Ok rs -> verify_rr_stream e false fuel rs = Ok v -> Forall no_backslash (vr_rrs v) ->
  exists fuel0, forall k fuel', (11 <= k)%nat -> (fuel0 <= fuel')%nat -> exists v' text j urls, SameResult v v' /\ Json text j /\ DescribesResult v' j /\
    lookup_doh e false fuel' reparse trap fetch endpoint k domain (TyText typ) = (match reparse text with Some s => JText s | None => JRejected end, urls)).
Proof.
  intros H. destruct z_runs as [_ R2]. destruct (in_order_ok _ _ _ _ _ _ R2) as (b0 & q0 & b & E & A & F). destruct (verdict_parts _ _ (proj1 z_verdicts)) as (rs & v & P & V & EV).
  assert (T : TypeName (bs "A") 1) by (apply type_spec; vm_compute; reflexivity).
  assert (NB : Forall no_backslash (vr_rrs v)) by (rewrite EV; exact xa_no_backslash).
  assert (NM : name_try_from (completed (bs "X.a")) = Some (bs "x.a.")) by (vm_compute; reflexivity).
  destruct (H toy_env Some [] zo_fetch bo_end z_answer (bs "X.a") (bs "A") 1 (bs "x.a.") b0 q0 zo_answers zo_serves zo_bytes T NM E y_other b _ _ rs 10%nat v A F z_hyps toy_sorts P V NB) as (f0 & S).
  destruct (S 11%nat (Nat.max f0 10) (le_n _) (Nat.le_max_l _ _)) as (v' & text & j & urls & _ & J & D & L). pose proof zo_lookup as Q.
  rewrite <- (doh_mono _ _ _ _ _ _ _ _ _ 10 (Nat.max f0 10)) in Q; [| rewrite Q; discriminate | apply Nat.le_max_r].
  rewrite L in Q. cbn [fst] in Q. assert (ET : text = error_json Invalid) by congruence. rewrite ET in J. destruct (error_shown Invalid) as (j' & J' & D'). rewrite (json_unique _ _ _ J J') in D.
  unfold DescribesError in D'. destruct D as (x & y & z & l & D & _). rewrite D' in D. discriminate D.
Qed.
(** The resolver of ArriveW. *)
Lemma shown_example : exists b0 q0 b rs v, builder_new (bs "x.a.") 1 = Ok (b0, q0) /\ Arrive false y_answer b0 [qb_deref q0] y_other b [] /\ finish_proof b = Ok (y_proof y_other, 60) /\
  parse_rr_stream false (y_proof y_other) = Ok rs /\ verify_rr_stream echo_env false 10 rs = Ok v /\ vr_rrs v = [w_a "x.a."] /\ Forall no_backslash (vr_rrs v).
Proof.
  destruct y_runs as [_ R2]. destruct (in_order_ok _ _ _ _ _ _ R2) as (b0 & q0 & b & E & A & F). destruct (verdict_parts _ _ (proj2 y_verified)) as (rs & v & P & V & EV).
  exists b0, q0, b, rs, v. repeat (split; [assumption |]). rewrite EV. exact xa_no_backslash.
Qed.
Lemma y_other_together : KeysTogether false y_answer y_other.
Proof. apply together_ok; [exact y_bytes |]. vm_compute. reflexivity. Qed.
Definition yo_items : list (RR * N) := Eval vm_compute in match itemss_of false (map y_answer y_other) with Some l => List.concat l | None => [] end.
Lemma yo_brings items : Brings false y_answer y_other items -> items = yo_items.
Proof.
  intros B. destruct (itemss_of false (map y_answer y_other)) as [l |] eqn:E; [| vm_compute in E; discriminate E].
  rewrite (brings_one _ _ _ _ y_bytes E B). assert (X : match itemss_of false (map y_answer y_other) with Some l => List.concat l | None => [] end = yo_items) by (vm_compute; reflexivity). rewrite E in X. exact X.
Qed.
Lemma yo_hyps items : Brings false y_answer y_other items -> Forall wf_rr (map fst items) /\
  (forall s, In (RR_RRSig s) (map fst items) -> ~ EmptyMaxLabels (map fst items) s) /\ TwoParams echo_env (map fst items) /\ OneZone echo_env (map fst items).
Proof.
  intros B. rewrite (yo_brings _ B). assert (W : Forall wf_rr (map fst yo_items)).
  { pose proof y_wf as W. rewrite Forall_forall in W. apply Forall_forall. intros r Hr. apply W.
    assert (X : forallb (fun r => existsb (rr_eqb r) (map fst y_items)) (map fst yo_items) = true) by (vm_compute; reflexivity).
    rewrite forallb_forall in X. apply X, existsb_exists in Hr as (r' & I & E). apply rr_eqb_eq in E as ->. exact I. }
  split; [exact W |]. split; [apply not_max; vm_compute; reflexivity |]. split; [apply no_nsec3; vm_compute; reflexivity |].
  apply (one_signer_ok _ (bs "a.")); [| vm_compute; reflexivity]. eapply Forall_impl; [exact wf_held | exact W].
Qed.
Definition bo_result : verified := Build_verified [w_a "x.a."] 1000000000 2000000000 3600.
Lemma bo_held : Forall Held (vr_rrs bo_result).
Proof.
  constructor; [| constructor]. apply wf_held. pose proof y_wf as W. rewrite Forall_forall in W. apply W.
  assert (X : existsb (rr_eqb (w_a "x.a.")) (map fst y_items) = true) by (vm_compute; reflexivity). apply existsb_exists in X as (r & I & E'). apply rr_eqb_eq in E' as ->. exact I.
Qed.
Lemma bo_describes : exists j, Json bo_text j /\ DescribesResult bo_result j.
Proof.
  assert (E : verified_json bo_result = bo_text) by (vm_compute; reflexivity). rewrite <- E. apply result_shown; [exact bo_held | | exact xa_no_backslash].
  constructor; [intros [] | constructor].
Qed.

(** ** The other way round: the good signature over the DNSKEYs of the root comes with those of a. *)
Definition u_table : list (list N * list N) := Eval vm_compute in
  [(y_query "x.a." 1, z_resp [w_a "x.a."; w_sig "x.a." 1 2 "a."]); (y_query "a." 43, z_resp [w_ds "a."; w_sig "a." 43 1 "."]);
   (y_query "a." 48, z_resp [w_key "a."; w_sig "a." 48 1 "a."; w_sig "." 48 0 "."]); (y_query "." 48, z_resp [w_key "."; w_badsig])].
Definition u_answer : list N -> list N := table u_table.
Definition u_proof (o : list (list N)) : list N := match in_order u_answer (bs "x.a.") 1 o with Some (p, _) => p | None => [] end.
Definition u_fetch (i : nat) (u : list N) : fetched :=
  Body match find (fun p => bytes_eqb (doh_url bo_end (fst p)) u) u_table with Some p => snd p | None => [] end.
Lemma u_serves i q u : GetUrl bo_end q u -> u_fetch i u = Body (u_answer q).
Proof.
  intros G. unfold u_fetch, u_answer, table. do 1 f_equal. rewrite (find_same _ (fun p => bytes_eqb (fst p) q)); [reflexivity |]. intros p I. apply url_same; [exact G |].
  assert (H : forallb (fun p => bytes_ok (fst p)) u_table = true) by (vm_compute; reflexivity). rewrite forallb_forall in H. apply is_bytes_ok, H, I.
Qed.
Lemma u_octets i u m : u_fetch i u = Body m -> is_bytes m.
Proof.
  intros H. assert (E : m = match find (fun p => bytes_eqb (doh_url bo_end (fst p)) u) u_table with Some p => snd p | None => [] end) by (apply (f_equal (fun f => match f with Body x => x | _ => [] end)) in H; symmetry; exact H).
  rewrite E. clear. assert (H : forallb (fun p => bytes_ok (snd p)) u_table = true) by (vm_compute; reflexivity). revert H. generalize u_table as t. intros t H.
  destruct (find _ t) as [p |] eqn:E; [| constructor]. apply find_some in E as [I _]. rewrite forallb_forall in H. apply is_bytes_ok, H, I.
Qed.
Lemma u_bytes q : is_bytes (u_answer q).
Proof. apply table_bytes. vm_compute. reflexivity. Qed.
Lemma u_answers q : is_bytes (u_answer q) /\ length_of (u_answer q) < 65535.
Proof.
  split; [apply u_bytes |]. unfold u_answer, table. assert (H : forallb (fun p => length_of (snd p) <? 65535) u_table = true) by (vm_compute; reflexivity). revert H. generalize u_table as t. intros t H.
  destruct (find _ t) as [p |] eqn:E; [| reflexivity]. apply find_some in E as [I _]. rewrite forallb_forall in H. apply N.ltb_lt. exact (H _ I).
Qed.
Lemma u_runs : in_order u_answer (bs "x.a.") 1 y_other = Some (u_proof y_other, 60).
Proof. vm_compute. reflexivity. Qed.
Lemma u_verdict : y_verdict toy_env (u_proof y_other) = Err Invalid.
Proof. vm_compute. reflexivity. Qed.
Lemma u_lookup : fst (lookup_doh toy_env false 10 Some [] u_fetch bo_end 11 (bs "X.a") (TyText (bs "A"))) = JText bo_text.
Proof. vm_compute. reflexivity. Qed.
Definition u_records : list RR := [w_a "x.a."; w_sig "x.a." 1 2 "a."; w_ds "a."; w_sig "a." 43 1 "."; w_key "."; w_badsig; w_key "a."; w_sig "a." 48 1 "a."; w_sig "." 48 0 "."].
Lemma u_brings items : Brings false u_answer y_other items -> map fst items = u_records.
Proof.
  intros B. destruct (itemss_of false (map u_answer y_other)) as [l |] eqn:E; [| vm_compute in E; discriminate E].
  rewrite (brings_one _ _ _ _ u_bytes E B). assert (X : match itemss_of false (map u_answer y_other) with Some l => map fst (List.concat l) | None => [] end = u_records) by (vm_compute; reflexivity). rewrite E in X. exact X.
Qed.
Lemma u_wf : Forall wf_rr u_records.
Proof.
  pose proof z_wf as W. rewrite Forall_forall in W. apply Forall_forall. intros r Hr. apply W.
  assert (X : forallb (fun r => existsb (rr_eqb r) z_records) u_records = true) by (vm_compute; reflexivity).
  rewrite forallb_forall in X. apply X, existsb_exists in Hr as (r' & I & E). apply rr_eqb_eq in E as ->. exact I.
Qed.
Lemma u_hyps items : Brings false u_answer y_other items -> Forall wf_rr (map fst items) /\
  (forall s, In (RR_RRSig s) (map fst items) -> ~ EmptyMaxLabels (map fst items) s) /\ TwoParams toy_env (map fst items) /\ OneZone toy_env (map fst items).
Proof.
  intros B. rewrite (u_brings _ B). split; [exact u_wf |]. split; [apply not_max; vm_compute; reflexivity |]. split; [apply no_nsec3; vm_compute; reflexivity |].
  apply (one_signer_ok _ (bs "a.")); [| vm_compute; reflexivity]. eapply Forall_impl; [exact wf_held | exact u_wf].
Qed.
Lemma client_refuted : ~ (forall e reparse trap (fetch : nat -> list N -> fetched) endpoint answer domain typ ty n b0 q0, (forall q, is_bytes (answer q) /\ length_of (answer q) < 65535) ->
  (forall i q u, GetUrl endpoint q u -> fetch i u = Body (answer q)) -> (forall i u m, fetch i u = Body m -> is_bytes m) ->
  TypeName typ ty -> name_try_from (completed domain) = Some n -> builder_new n ty = Ok (b0, q0) -> Reformats reparse ->
  forall k fuel s urls j V, (11 <= k)%nat -> lookup_doh e false fuel reparse trap fetch endpoint k domain (TyText typ) = (JText s, urls) ->
  Json s j -> DescribesResult V j -> Forall Held (vr_rrs V) ->
  forall order b p ttl, Arrive false answer b0 [qb_deref q0] order b [] -> finish_proof b = Ok (p, ttl) ->
  (forall items, Brings false answer order items -> Forall wf_rr (map fst items) /\
    (forall s, In (RR_RRSig s) (map fst items) -> ~ EmptyMaxLabels (map fst items) s) /\ TwoParams e (map fst items) /\ OneZone e (map fst items)) -> SortsNeeds e ->
  exists rs fuel' v', parse_rr_stream false p = Ok rs /\ verify_rr_stream e false fuel' rs = Ok v').
Proof.
  intros H. destruct (in_order_ok _ _ _ _ _ _ u_runs) as (b0 & q0 & b & E & A & F). destruct bo_describes as (j & J & D).
  assert (T : TypeName (bs "A") 1) by (apply type_spec; vm_compute; reflexivity).
  assert (NM : name_try_from (completed (bs "X.a")) = Some (bs "x.a.")) by (vm_compute; reflexivity).
  pose proof u_lookup as L. destruct (lookup_doh toy_env false 10 Some [] u_fetch bo_end 11 (bs "X.a") (TyText (bs "A"))) as [r urls] eqn:LK. cbn [fst] in L. rewrite L in LK. clear L r.
  destruct (H toy_env Some [] u_fetch bo_end u_answer (bs "X.a") (bs "A") 1 (bs "x.a.") b0 q0 u_answers u_serves u_octets T NM E some_reformats 11%nat 10%nat bo_text urls j bo_result (le_n _) LK J D bo_held y_other b _ _ A F u_hyps toy_sorts)
    as (rs & f' & v' & P & V). pose proof u_verdict as Q. unfold y_verdict in Q. rewrite P in Q.
  pose proof (verify_fuel _ _ _ _ _ _ V (fun X => ltac:(discriminate X)) Q (fun X => ltac:(discriminate X))) as Z. discriminate Z.
Qed.
