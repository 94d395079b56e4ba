(** JSON texts and worlds for Prop_Doh. *)
From Verif Require Import Base BaseP NameM NameSpec NameP WireM WireSpec RRM SerM ValM RecSpec RecP2 SignedP ValSpec ValP4 ValW OrderW HeldP CodecSpec QueryM QuerySpec QueryP QueryP2 QueryW AcceptSpec SecW JsonM JsonSpec JsonP JsonP2 JsonP3 JsonP4 JsonP5 WasmM WasmSpec WasmP DohM DohSpec DohP DohP2 DohP3 LiveSpec LiveP LiveP2 LiveP3 LiveW LiveW2.
From Coq Require Import String Lia Permutation PeanoNat.
Local Open Scope N_scope.

(** ** What is returned is JSON *)
Lemma clean_str s : Forall (fun c => 32 <= c /\ c <> 34 /\ c <> 92) s -> Str s s.
Proof. induction 1 as [|c s (A & B & C) F IH]; [constructor|]. apply Str_raw; assumption. Qed.
Lemma clean_app a b : Clean a -> Clean b -> Clean (a ++ b).
Proof. intros [A A'] [B B']. split; [apply utf8_app; assumption|apply Forall_app; auto]. Qed.
Lemma plain_clean s : forallb (fun c => (32 <=? c) && negb (c =? 34) && negb (c =? 92) && (c <? 128)) s = true -> Clean s.
Proof.
  intros H. assert (F : Forall (fun c => 32 <= c /\ c <> 34 /\ c <> 92 /\ c < 128) s).
  { apply Forall_forall. intros c I. rewrite forallb_forall in H. specialize (H c I). rewrite !andb_true_iff, !negb_true_iff, N.leb_le, !N.eqb_neq, N.ltb_lt in H. tauto. }
  split; [apply utf8_ascii; eapply Forall_impl; [|exact F]; cbn; tauto|]. eapply Forall_impl; [|exact F]. cbn. tauto.
Qed.
Lemma error_object s : Clean s -> exists v, Json (bs "{""error"":""" ++ s ++ bs """}") v.
Proof.
  intros [U F]. exists (JObj [(bs "error", JStr s)]). apply value_json.
  - apply utf8_app; [ascii|]. apply utf8_app; [exact U|ascii].
  - assert (E : bs "{""error"":""" ++ s ++ bs """}" = bs "{" ++ sep_list (bs ",") (map (fun kt => quoted (fst kt) ++ 58 :: [] ++ snd kt) (combine [bs "error"] [quoted s])) ++ bs "}").
    { cbn [map combine sep_list fst snd]. unfold quoted, q1. rewrite <- !app_assoc. cbn. rewrite <- !app_assoc. reflexivity. }
    rewrite E. apply (value_object (bs ",") [] [bs "error"] _ [JStr s] comma_plain).
    + constructor.
    + constructor; [lit|constructor].
    + constructor; [|constructor]. apply value_quoted, clean_str. exact F.
Qed.

Lemma doh_json e dbg fuel reparse trap fetch endpoint : (forall s s', reparse s = Some s' -> exists v, Json s' v) -> Clean trap -> (forall i u exn, fetch i u = Failed exn -> Clean exn) ->
  forall k domain ty s urls, lookup_doh e dbg fuel reparse trap fetch endpoint k domain ty = (JText s, urls) -> exists v, Json s v.
Proof.
  intros HR HT HF k domain ty s urls H.
  assert (P : forall w, Clean (bs w) -> exists v, Json (err_text w) v) by (intros w C; apply error_object; exact C).
  assert (Q : forall exn, Clean exn -> exists v, Json (fetch_error exn) v).
  { intros exn C. replace (fetch_error exn) with (bs "{""error"":""" ++ (bs "DoH Query failed: " ++ exn) ++ bs """}") by (unfold fetch_error; rewrite <- !app_assoc; reflexivity).
    apply error_object, clean_app; [apply plain_clean; reflexivity|exact C]. }
  unfold lookup_doh in H. destruct ty as [ty|n]; [|discriminate H]. destruct (type_number ty) as [t|]; [|injection H as <- <-; apply P, plain_clean; reflexivity].
  destruct (init_proof_builder _ t) as [[w|]| | |]; try discriminate H; [|injection H as <- <-; apply P, plain_clean; reflexivity].
  revert H. generalize 0%nat as i. generalize 0%N as p. revert w urls. induction k as [|k IH]; intros w urls p i H; cbn [send_next_query] in H; [discriminate H|].
  destruct (get_next_query w) as [[q|] w'].
  - destruct (fetch i (doh_url endpoint q)) as [b|exn] eqn:F; [|injection H as <- <-; apply Q; eauto].
    destruct (process_query_response dbg w' b) as [w2| | |]; [|injection H as <- <-; apply Q; exact HT ..].
    destruct (send_next_query e dbg fuel reparse trap fetch endpoint k w2 (p + 1 - 1) (Datatypes.S i)) as [r us] eqn:S. injection H as -> <-. eapply IH. exact S.
  - destruct (p =? 0); [|discriminate H]. destruct (get_unverified_proof w') as [pr|]; [|injection H as <- <-; apply P, plain_clean; reflexivity].
    unfold check_proof in H. destruct (verify_byte_stream e dbg fuel pr) as [t'|[]| |]; try discriminate H. destruct (reparse t') eqn:R; [|discriminate H]. injection H as <- <-. eauto.
Qed.

Definition quote_fetch (i : nat) (u : list N) : fetched := Failed (bs "no route to ""x""").
Lemma quote_not v : ~ Json (query_failed (bs "no route to ""x""")) v.
Proof.
  intros J. apply json_parses in J as (f & J). destruct (J (30 + f)%nat ltac:(lia)) as (w & P & _). vm_compute in P. discriminate.
Qed.
Lemma doh_json_refuted : ~ (forall e dbg fuel reparse trap fetch endpoint k domain ty s urls, (forall s s', reparse s = Some s' -> exists v, Json s' v) -> Clean trap ->
  lookup_doh e dbg fuel reparse trap fetch endpoint k domain ty = (JText s, urls) -> exists v, Json s v).
Proof.
  intros H. destruct (H toy_env false 0%nat (fun _ => None) [] quote_fetch (bs "https://r/") 11%nat (bs "x") (TyText (bs "A")) (query_failed (bs "no route to ""x"""))
    [doh_url (bs "https://r/") (match build_query (bs "x.") 1 with Ok q => qb_deref q | _ => [] end)]) as (v & J).
  - discriminate.
  - apply plain_clean. reflexivity.
  - vm_compute. reflexivity.
  - exact (quote_not v J).
Qed.

(** ** Worlds *)
Definition l_url (endpoint : list N) (q : list N * N) : list N := doh_url endpoint (match build_query (fst q) (snd q) with Ok q => qb_deref q | _ => [] end).
Definition l_fetch (zones : list zone) (answers : list rset) (n : list N) (ty : N) (endpoint : list N) (i : nat) (u : list N) : fetched :=
  match find (fun q => bytes_eqb u (l_url endpoint q)) (qlist zones n ty) with Some q => Body (l_resp zones answers n ty (fst q) (snd q)) | None => Failed [] end.
Definition fetchb (zones : list zone) (answers : list rset) (n : list N) (ty : N) (endpoint : list N) : bool :=
  forallb (fun q => match l_fetch zones answers n ty endpoint 0 (l_url endpoint q) with Body b => bytes_eqb b (l_resp zones answers n ty (fst q) (snd q)) && (len b <? 65535) | Failed _ => false end &&
    match name_try_from (fst q) with Some n => bytes_eqb n (fst q) | None => false end && (snd q <? 65536)) (qlist zones n ty).
Lemma asked_listed e zones answers n ty Vouched data m t : WellSigned e zones answers Vouched -> ServesJust zones answers n ty data -> ty <> 43 /\ ty <> 48 ->
  Asked data n ty m t -> In (m, t) (qlist zones n ty).
Proof.
  intros W SV NT A. apply (tree_asked e zones answers n ty _ _ Vouched W SV NT (Permutation_refl _)) in A.
  remember (m, t) as q. destruct A as [|z Iz|z Iz R]; [left; reflexivity| |]; right; apply in_app_iff; [left|right].
  - apply (in_map (fun z => (zn_name z, 48))). exact Iz.
  - apply (in_map (fun z => (zn_name z, 43))). apply filter_In. split; [exact Iz|]. rewrite <- rootb_iff in R. destruct (rootb z); [exfalso; auto|reflexivity].
Qed.
Lemma fetch_answers e zones answers n ty Vouched data endpoint : WellSigned e zones answers Vouched -> ServesJust zones answers n ty data -> ty <> 43 /\ ty <> 48 ->
  fetchb zones answers n ty endpoint = true ->
  (forall m t, Asked data n ty m t -> length_of (l_resp zones answers n ty m t) < 65535) /\
  (forall i m t b u, Asked data n ty m t -> Query m t b -> GetUrl endpoint b u -> l_fetch zones answers n ty endpoint i u = Body (l_resp zones answers n ty m t)).
Proof.
  intros W SV NT H.
  assert (G : forall m t, Asked data n ty m t -> l_fetch zones answers n ty endpoint 0 (l_url endpoint (m, t)) = Body (l_resp zones answers n ty m t) /\
    length_of (l_resp zones answers n ty m t) < 65535 /\ name_try_from m = Some m /\ t < 65536).
  { intros m t A. unfold fetchb in H. rewrite forallb_forall in H. specialize (H _ (asked_listed _ _ _ _ _ _ _ _ _ W SV NT A)). cbn [fst snd] in H. rewrite !andb_true_iff in H. destruct H as [[F M] T].
    destruct (name_try_from m) as [m'|] eqn:EM; [|discriminate M]. apply bytes_eqb_eq in M. subst m'. apply N.ltb_lt in T.
    destruct (l_fetch _ _ _ _ _ _ _) as [b|]; [|discriminate F]. apply andb_true_iff in F as [F L]. apply bytes_eqb_eq in F. subst b. apply N.ltb_lt in L. auto. }
  split; [intros m t A; apply (G m t A)|]. intros i m t b u A Q (x & B & ->). destruct (G m t A) as (F & _ & M & T).
  destruct (build_query_spec m t M T) as (q & BQ & QQ & _). pose proof (query_unique _ _ _ _ Q QQ) as ->.
  unfold l_url in F. cbn [fst snd] in F. rewrite BQ in F. pose proof (query_bytes _ _ _ T QQ) as QB.
  rewrite (url_unique _ _ _ B (b64url_spec _ QB)). exact F.
Qed.

(** The name of the answer is \q.a. *)
Definition l_back : list rset :=
  [{| an_name := bs "\q.a."; an_ty := 1; an_recs := [w_a "\q.a."]; an_sigs := [o_rrsig "\q.a." 1 2 "a." [w_a "\q.a."]] |}].
Lemma backw_wf : Forall wf_rr (world_records l_small l_back).
Proof. unfold l_small, l_back, l_root, l_zone. l_wf_all. Qed.
Lemma qa_labels : LabelsOf (bs "\q.a.") [[92; 113]; [97]].
Proof. labels. Qed.
Lemma backw_signed : WellSigned echo_env l_small l_back (FirstVouched echo_env).
Proof.
  apply world_signed; [exact backw_wf|vm_compute; reflexivity|apply nodup_b; vm_compute; reflexivity| | | |].
  - repeat constructor. intros [].
  - apply (first_vouched _ _ _ backw_wf). vm_compute. reflexivity.
  - intros a [<-|[]]. apply Forall_cons; [|apply Forall_nil]. eapply full_labels; [vm_compute; discriminate|exact qa_labels|reflexivity].
  - intros a s pre l suf [<-|[]] [<-|[]] _ L E. exfalso. exact (not_wild _ _ _ _ _ _ qa_labels L eq_refl E).
Qed.
Lemma backw_just : ServesJust l_small l_back (bs "\q.a.") 1 (l_data l_small l_back (bs "\q.a.") 1).
Proof. split; [vm_compute; reflexivity|]. intros z [<-|[<-|[]]]; (split; [|intros R]); vm_compute; reflexivity. Qed.
Lemma backw_serves : Serves l_small l_back (bs "\q.a.") 1 (l_data l_small l_back (bs "\q.a.") 1).
Proof. exact (serves_just _ _ _ _ _ backw_just). Qed.
Lemma backw_answers : Answers (l_data l_small l_back (bs "\q.a.") 1) false (bs "\q.a.") 1 (l_resp l_small l_back (bs "\q.a.") 1) /\
  (forall m t rt, Asked (l_data l_small l_back (bs "\q.a.") 1) (bs "\q.a.") 1 m t -> In rt (l_data l_small l_back (bs "\q.a.") 1 m t) -> wf_rr (fst rt)).
Proof. answers_of backw_signed backw_wf. exact backw_just. Qed.

Definition doh_back (reparse : list N -> option (list N)) (fuel : nat) := lookup_doh echo_env false fuel reparse [] (l_fetch l_small l_back (bs "\q.a.") 1 (bs "https://r/")) (bs "https://r/") 11 (bs "\q.a") (TyText (bs "A")).
Definition back_text : list N := match doh_back Some 10 with (JText t, _) => t | _ => [] end.
Definition back_parse (s : list N) : option (list N) := if bytes_eqb s back_text then None else Some s.
Lemma back_not v : ~ Json back_text v.
Proof.
  intros J. apply json_parses in J as (f & J). destruct (J (30 + f)%nat ltac:(lia)) as (w & P & _). vm_compute in P. discriminate.
Qed.
Lemma doh_works_refuted : ~ (forall e zones answers domain ty t n data resp fetch endpoint reparse trap, TypeName ty t -> name_try_from (completed domain) = Some n -> SortsNeeds e ->
  WellSigned e zones answers (FirstVouched e) -> Serves zones answers n t data -> Answers data false n t resp ->
  (forall m t' rt, Asked data n t m t' -> In rt (data m t') -> wf_rr (fst rt)) -> (List.length zones <= 5)%nat ->
  (forall m t', Asked data n t m t' -> length_of (resp m t') < 65535) ->
  (forall i m t' b u, Asked data n t m t' -> Query m t' b -> GetUrl endpoint b u -> fetch i u = Body (resp m t')) ->
  (forall s v, Json s v -> reparse s <> None) ->
  exists fuel0, forall fuel, (fuel0 <= fuel)%nat -> exists s urls, lookup_doh e false fuel reparse trap fetch endpoint 11 domain (TyText ty) = (JText s, urls)).
Proof.
  intros H. destruct (fetch_answers echo_env l_small l_back (bs "\q.a.") 1 _ _ (bs "https://r/") backw_signed backw_just ltac:(split; discriminate) ltac:(vm_compute; reflexivity)) as [LS FS].
  destruct (H echo_env l_small l_back (bs "\q.a") (bs "A") 1 (bs "\q.a.") (l_data l_small l_back (bs "\q.a.") 1) (l_resp l_small l_back (bs "\q.a.") 1)
    (l_fetch l_small l_back (bs "\q.a.") 1 (bs "https://r/")) (bs "https://r/") back_parse []) as (fuel0 & W).
  - apply type_spec. reflexivity.
  - vm_compute. reflexivity.
  - exact echo_sorts.
  - exact backw_signed.
  - exact backw_serves.
  - exact (proj1 backw_answers).
  - exact (proj2 backw_answers).
  - apply Nat.leb_le. reflexivity.
  - exact LS.
  - exact FS.
  - intros s v J. unfold back_parse. destruct (bytes_eqb s back_text) eqn:E; [|discriminate]. apply bytes_eqb_eq in E. subst s. exfalso. exact (back_not v J).
  - destruct (W (fuel0 + 10)%nat ltac:(lia)) as (s & urls & E).
    assert (R : fst (doh_back back_parse 10) = JRejected) by (vm_compute; reflexivity).
    pose proof (doh_mono echo_env false back_parse [] (l_fetch l_small l_back (bs "\q.a.") 1 (bs "https://r/")) (bs "https://r/") 11 (bs "\q.a") (TyText (bs "A")) 10 (fuel0 + 10)) as M.
    change (lookup_doh echo_env false 10 _ _ _ _ _ _ _) with (doh_back back_parse 10) in M. rewrite R in M. specialize (M ltac:(discriminate) ltac:(lia)).
    rewrite E in M. rewrite <- M in R. discriminate R.
Qed.
