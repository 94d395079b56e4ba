(** What a DNS-over-HTTPS lookup does, and that it works with an answering resolver (C65). *)
From Verif Require Import Base BaseP NameSpec NameM NameP WireM WireSpec RRM SerM RecSpec SignedP RecP2 HeldP ValSpec ValM ValP4 CodecSpec JsonSpec JsonP5 QueryM QuerySpec QBufP QueryP QueryP2 QueryP3 QueryP4 JsonM WasmM WasmSpec WasmP DohM DohSpec DohP DohP2 AcceptSpec LiveSpec LiveP LiveP2 LiveP3.
From Coq Require Import String Lia Arith Permutation.
Local Open Scope N_scope.

Lemma completed_twice d : completed (completed d) = completed d.
Proof.
  assert (L : last (completed d) 0 = 46) by (unfold completed; destruct (N.eq_dec (last d 0) 46) as [E|_]; [exact E|apply last_last]).
  unfold completed at 1. rewrite L. reflexivity.
Qed.

Section Run.
  Variable e : env.
  Variable dbg : bool.
  Variable fuel : nat.
  Variable reparse : bytes -> option bytes.
  Variable trap : bytes.
  Variable fetch : nat -> bytes -> fetched.
  Variable endpoint : bytes.
  Notation lookup := (lookup_doh e dbg fuel reparse trap fetch endpoint).

  Lemma check_checked p : Checked e dbg fuel reparse p (check_proof e dbg fuel reparse p).
  Proof.
    unfold check_proof. destruct (verify_byte_stream e dbg fuel p) as [t|[]| |] eqn:V; [|econstructor; eassumption|econstructor; eassumption].
    destruct (reparse t) eqn:R; econstructor; eassumption.
  Qed.
  Lemma lookup_number k domain n : lookup k domain (TyNumber n) = (JRejected, []).
  Proof. reflexivity. Qed.
  Lemma lookup_type k domain ty : (forall t, ~ TypeName ty t) -> lookup k domain (TyText ty) = (JText unsupported, []).
  Proof. intros H. unfold lookup_doh. destruct (type_number ty) as [t|] eqn:T; [exfalso; apply (H t), type_spec, T | reflexivity]. Qed.
  Lemma lookup_domain k domain ty t : TypeName ty t -> name_try_from (completed domain) = None -> lookup k domain (TyText ty) = (JText bad_domain, []).
  Proof.
    intros T D. unfold lookup_doh. rewrite (proj2 (type_spec _ _) T), completed_eq. unfold init_proof_builder. rewrite completed_eq, completed_twice, D. reflexivity.
  Qed.

  Lemma doh_run k domain ty t n r urls : (11 <= k)%nat -> TypeName ty t -> name_try_from (completed domain) = Some n ->
    (forall i u b, fetch i u = Body b -> is_bytes b) ->
    lookup k domain (TyText ty) = (r, urls) ->
    exists b0 q0 tr b bodies qs, builder_new n t = Ok (b0, q0) /\ Calls dbg b0 tr b /\ map fst tr = short 65535 bodies /\
      Forall2 (fun q u => GetUrl endpoint (qb_deref q) u) qs urls /\ (List.length urls <= 10)%nat /\
      ((qs = q0 :: handed tr /\ Fetched fetch urls bodies /\
        ((exists p ttl, finish_proof b = Ok (p, ttl) /\ Checked e dbg fuel reparse p r) \/
         ((forall p, finish_proof b <> Ok p) /\ r = JText build_failed))) \/
       (exists us u later, urls = us ++ [u] /\ q0 :: handed tr = qs ++ later /\ Fetched fetch us bodies /\
         ((exists exn, fetch (List.length us) u = Failed exn /\ r = JText (query_failed exn)) \/
          (exists m, fetch (List.length us) u = Body m /\ BadResponse dbg m /\ r = JText (query_failed trap))))).
  Proof.
    intros K T D FB H. pose proof (type_small _ _ T) as T6. unfold lookup_doh in H. rewrite (proj2 (type_spec _ _) T), completed_eq in H.
    destruct (init_proof_builder (completed domain) t) as [[w0|]| | |] eqn:I.
    2-5: exfalso; unfold init_proof_builder in I; rewrite completed_eq, completed_twice, D in I; destruct (query_built n t) as (q & B & _); [eapply name_reparse; exact D|exact T6|rewrite B in I; discriminate].
    destruct (send_run e dbg fuel reparse trap fetch endpoint w0 k [] w0 r urls) as (evs & w & qs & S & U & _ & G & E);
      [constructor|reflexivity|intros i q m Q; destruct i; discriminate|exact H|].
    cbn [taken flat_map List.length skipn] in U, E.
    assert (TQ : taken evs = qs) by (destruct E; assumption).
    assert (LE : (List.length (given evs) <= List.length qs)%nat).
    { destruct E as [? ? ? L|? ? L|qs' q exn ? -> L|qs' q m ? -> L]; [rewrite L; lia|rewrite L; lia|rewrite L, app_length; lia|rewrite L, app_length; lia]. }
    assert (GB : Forall is_bytes (given evs)).
    { apply Forall_forall. intros m Im. apply In_nth_error in Im as (i & M). assert (LT : (i < List.length (given evs))%nat) by (apply nth_error_Some; congruence).
      destruct (nth_error qs i) as [q|] eqn:Q; [|apply nth_error_None in Q; lia]. exact (FB _ _ _ (G i q m Q M)). }
    destruct (wasm_fifo _ _ _ _ _ _ T6 I S GB) as (n' & b0 & q0 & tr & NN & BN & C & MF & TK & L10).
    rewrite completed_twice, D in NN. injection NN as <-. rewrite TQ in TK, L10.
    assert (BY : Forall (fun q => is_bytes (qb_deref q)) (q0 :: handed tr)).
    { constructor.
      - destruct (query_built n t) as (q & B & Q & _); [eapply name_reparse; exact D|exact T6|]. rewrite B in BN. injection BN as <- <-. eapply query_bytes; eassumption.
      - eapply handed_bytes; [exact C|]. eapply bytes_fed; eassumption. }
    exists b0, q0, tr, (w_builder w), (given evs), (firstn (List.length qs) (q0 :: handed tr)).
    assert (QS : qs = map qb_deref (firstn (List.length qs) (q0 :: handed tr))).
    { rewrite <- firstn_map, <- TK, firstn_app, firstn_all, Nat.sub_diag. cbn. rewrite app_nil_r. reflexivity. }
    split; [exact BN|]. split; [exact C|]. split; [exact MF|]. split.
    { rewrite U. revert QS BY. generalize (List.length qs) as z. generalize (q0 :: handed tr) as l. intros l z QS BY. rewrite QS, map_map.
      assert (BF : Forall (fun q => is_bytes (qb_deref q)) (firstn z l)).
      { rewrite Forall_forall in *. intros q Iq. apply BY. rewrite <- (firstn_skipn z l). apply in_app_iff. auto. }
      clear - BF. induction BF; cbn [map]; constructor; [apply get_url; assumption|assumption]. }
    split; [rewrite U, map_length; exact L10|].
    assert (FT : forall us, (forall i, (i < List.length us)%nat -> nth_error us i = nth_error urls i) -> List.length (given evs) = List.length us -> Fetched fetch us (given evs)).
    { intros us PR L. split; [auto|]. intros i u m X M. assert (LT : (i < List.length us)%nat) by (apply nth_error_Some; congruence). rewrite PR in X by exact LT.
      rewrite U in X. destruct (nth_error qs i) as [q|] eqn:Q.
      - erewrite map_nth_error in X by exact Q. injection X as <-. eauto.
      - apply nth_error_None in Q. assert (nth_error (map (doh_url endpoint) qs) i = None) by (apply nth_error_None; rewrite map_length; exact Q). congruence. }
    destruct E as [E1 E2 E3 E4|E1 E2 E3 E4|qs' q exn E1 E2 E3 E4 E5|qs' q m E1 E2 E3 E4 E5 E6].
    - exfalso. cbn [Nat.add] in E1. lia.
    - left. split.
      { rewrite E1 in TK. change (map qb_deref []) with (@nil (list N)) in TK. rewrite app_nil_r in TK. rewrite TK, map_length. apply firstn_all. }
      split; [apply FT; [reflexivity|rewrite U, map_length; exact E3]|].
      unfold get_unverified_proof in E4. destruct (finish_proof (w_builder w)) as [[p ttl]| | |]; subst r.
      + left. exists p, ttl. split; [reflexivity|apply check_checked].
      + right. split; [discriminate|reflexivity].
      + right. split; [discriminate|reflexivity].
      + right. split; [discriminate|reflexivity].
    - right. exists (map (doh_url endpoint) qs'), (doh_url endpoint q), (skipn (List.length qs) (q0 :: handed tr)).
      split; [rewrite U, E2, map_app; reflexivity|]. split; [symmetry; apply firstn_skipn|].
      split; [apply FT; [intros i Li; rewrite U, E2, map_app; rewrite nth_error_app1 by exact Li; reflexivity|rewrite map_length; exact E3]|].
      left. exists exn. rewrite map_length. split; [exact E4|exact E5].
    - right. exists (map (doh_url endpoint) qs'), (doh_url endpoint q), (skipn (List.length qs) (q0 :: handed tr)).
      split; [rewrite U, E2, map_app; reflexivity|]. split; [symmetry; apply firstn_skipn|].
      split; [apply FT; [intros i Li; rewrite U, E2, map_app; rewrite nth_error_app1 by exact Li; reflexivity|rewrite map_length; exact E3]|].
      right. exists m. rewrite map_length. split; [exact E4|]. split; [|exact E6].
      pose proof (FB _ _ _ E4) as MB. unfold process_query_response in E5. change (len m) with (N.of_nat (List.length m)) in E5.
      destruct (N.ltb_spec (N.of_nat (List.length m)) 65535) as [L|L]; [|exfalso; apply (E5 w); reflexivity].
      assert (A : as_u16 (N.of_nat (List.length m)) = len m) by (unfold as_u16, len; apply N.mod_small; lia). rewrite A, buffer_fill in E5 by (unfold len; lia || reflexivity).
      destruct (N.eq_dec (pb_pending (w_builder w)) 0) as [P0|P0].
      { exfalso. unfold process_response in E5. apply N.eqb_eq in P0. rewrite P0 in E5. eapply E5. reflexivity. }
      destruct (process_panic dbg (w_builder w) m MB P0) as [PP PL].
      destruct (process_response dbg (w_builder w) m) as [x y]. cbn [fst] in *. destruct x; [exfalso; eapply E5; reflexivity|exfalso; eapply E5; reflexivity|apply PP; reflexivity|congruence].
  Qed.
End Run.

(** ** An answering resolver *)
Section Works.
  Variable e : env.
  Variable dbg : bool.
  Variable reparse : bytes -> option bytes.
  Variable trap : bytes.
  Variable fetch : nat -> bytes -> fetched.
  Variable endpoint : bytes.
  Variable data : list N -> N -> list (RR * N).
  Variable n0 : list N.
  Variable t0 : N.
  Variable resp : list N -> N -> list N.
  Variable keys : list (list N).
  Hypothesis HT : t0 < 65536.
  Hypothesis HA : Answers data dbg n0 t0 resp.
  Hypothesis HK : AllSigners data n0 t0 keys.
  Hypothesis HN : (needed keys <= 10)%nat.
  Hypothesis HF : forall i n t b u, Asked data n0 t0 n t -> Query n t b -> GetUrl endpoint b u -> fetch i u = Body (resp n t).
  Hypothesis HS : forall n t, Asked data n0 t0 n t -> length_of (resp n t) < 65535.

  Lemma asked_type n t : Asked data n0 t0 n t -> t < 65536.
  Proof.
    induction 1 as [|n t k t' A IH S It]; [exact HT|]. unfold key_types in It. destruct (list_eq_dec _ _ _); cbn in It; destruct It as [<-|It]; try lia; destruct It as [<-|[]]; lia.
  Qed.
  Definition doh_end (fuel : nat) (b : builder) : js_result :=
    match finish_proof b with Ok (p, _) => check_proof e dbg fuel reparse p | _ => JText (err_text "Failed to build proof") end.
  Lemma doh_drive : forall m R i w, Linv data n0 t0 R i (w_builder w) -> Forall2 query_of (skipn i (qof n0 t0 R)) (w_queue w) -> (11 <= i + m)%nat ->
    exists R2 bf urls, Linv data n0 t0 (R ++ R2) (List.length (qof n0 t0 (R ++ R2))) bf /\
      (forall fuel k, (m <= k)%nat -> send_next_query e dbg fuel reparse trap fetch endpoint k w 0 i = (doh_end fuel bf, urls)) /\
      Forall2 (fun q u => exists b, Query (fst q) (snd q) b /\ GetUrl endpoint b u) (skipn i (qof n0 t0 (R ++ R2))) urls.
  Proof.
    induction m as [|m IH]; intros R i w L Q K.
    { exfalso. pose proof (li_budget _ _ _ _ HK HN _ _ _ L) as B1. pose proof (li_le _ _ _ _ _ _ L) as B2. rewrite (li_made _ _ _ _ _ _ L) in B1. lia. }
    pose proof (li_le _ _ _ _ _ _ L) as LE.
    destruct (Nat.eq_dec i (List.length (qof n0 t0 R))) as [->|NE].
    - rewrite skipn_all in Q. assert (EQ : w_queue w = []) by (inversion Q; reflexivity). exists [], (w_builder w), []. rewrite app_nil_r, skipn_all. split; [exact L|]. split; [|constructor].
      intros fuel k LK. destruct k as [|k]; [lia|]. cbn [send_next_query]. unfold get_next_query. rewrite EQ.
      change (0 =? 0) with true. cbv iota. unfold get_unverified_proof, doh_end. destruct (finish_proof (w_builder w)) as [[p ttl]| | |]; reflexivity.
    - assert (LT : (i < List.length (qof n0 t0 R))%nat) by lia. destruct (skipn_nth i (qof n0 t0 R) LT) as (q & Eq & Sk). rewrite Sk in Q.
      remember (w_queue w) as wq eqn:EW. inversion Q as [|? x ? l [BQ QX] QL]; subst.
      pose proof (li_asked _ _ _ _ _ _ q L (nth_error_In _ _ Eq)) as A. pose proof (query_bytes _ _ _ (asked_type _ _ A) QX) as XB.
      assert (F : fetch i (doh_url endpoint (into_vec x)) = Body (resp (fst q) (snd q))) by (eapply HF; [exact A|exact QX|apply get_url; exact XB]).
      destruct (live_step _ _ _ _ _ _ HA HK HN _ _ _ _ L Eq) as (new & qs & b' & P & L' & Q').
      pose proof (HS _ _ A) as SH. 
      destruct (IH (R ++ new) (Datatypes.S i) {| w_builder := b'; w_queue := l ++ qs |}) as (R2 & bf & urls & LF & SE & UF).
      + exact L'.
      + cbn [w_queue]. rewrite qof_app, skipn_app1 by lia. apply Forall2_app; assumption.
      + lia.
      + exists (new ++ R2), bf, (doh_url endpoint (into_vec x) :: urls). rewrite app_assoc. split; [exact LF|].
        assert (SK : skipn i (qof n0 t0 ((R ++ new) ++ R2)) = q :: skipn (Datatypes.S i) (qof n0 t0 ((R ++ new) ++ R2))).
        { rewrite <- !app_assoc, qof_app, !skipn_app1 by lia. rewrite Sk. reflexivity. }
        split; [|rewrite SK; constructor; [|exact UF]; exists (qb_deref x); split; [exact QX|apply get_url; exact XB]].
        intros fuel k LK. destruct k as [|k]; [lia|]. cbn [send_next_query]. unfold get_next_query. match goal with X : _ :: _ = w_queue w |- _ => rewrite <- X end.
        rewrite F. unfold process_query_response. cbn [w_builder w_queue].
        change (len (resp (fst q) (snd q))) with (length_of (resp (fst q) (snd q))). apply N.ltb_lt in SH as SH'. rewrite SH'.
        assert (AU : as_u16 (length_of (resp (fst q) (snd q))) = len (resp (fst q) (snd q))) by (unfold as_u16; apply N.mod_small; eapply N.lt_trans; [exact SH|reflexivity]).
        rewrite AU, buffer_fill by (reflexivity || (apply N.lt_le_incl; exact SH)). unfold respq in P. rewrite P.
        change (0 + 1 - 1) with 0. rewrite SE by lia. reflexivity.
  Qed.
End Works.

Lemma doh_works e dbg zones answers domain ty t n data resp fetch endpoint reparse trap : TypeName ty t -> name_try_from (completed domain) = Some n -> SortsNeeds e ->
  WellSigned e zones answers (FirstVouched e) -> Serves zones answers n t data -> Answers data dbg n t resp ->
  (forall m t' rt, Asked data n t m t' -> In rt (data m t') -> wf_rr (fst rt)) -> (List.length zones <= 5)%nat ->
  (forall m t', Asked data n t m t' -> length_of (resp m t') < 65535) ->
  (forall i m t' b u, Asked data n t m t' -> Query m t' b -> GetUrl endpoint b u -> fetch i u = Body (resp m t')) ->
  Forall (fun a => Forall no_backslash (an_recs a)) answers ->
  exists qs urls v text j fuel0, Permutation qs (questions n t (map zn_name zones)) /\
    Forall2 (fun q u => exists b, Query (fst q) (snd q) b /\ GetUrl endpoint b u) qs urls /\
    (forall r, In r (vr_rrs v) <-> exists a, In a answers /\ In r (an_recs a) /\ an_ty a <> 47 /\ an_ty a <> 50) /\
    Json text j /\ DescribesResult v j /\
    forall k fuel, (11 <= k)%nat -> (fuel0 <= fuel)%nat ->
      lookup_doh e dbg fuel reparse trap fetch endpoint k domain (TyText ty) = (match reparse text with Some s => JText s | None => JRejected end, urls).
Proof.
  intros T D SN W SV HA HW HL HS HF NB. pose proof (type_small _ _ T) as T6.
  assert (NT : t <> 43 /\ t <> 48). { destruct T as (w & I & _). cbn [In] in I. destruct I as [I|[I|[I|[I|[]]]]]; injection I as _ <-; split; discriminate. }
  pose proof (live_signers e zones answers n t data W SV NT) as HK. pose proof (zones_needed _ _ _ _ W HL) as HN.
  assert (V : name_try_from n = Some n) by (eapply name_reparse; exact D).
  destruct (query_built n t V T6) as (q & BQ & QQ & QL).
  assert (Q0 : Forall2 query_of (skipn 0 (qof n t [])) [q]).
  { cbn [skipn]. unfold qof. cbn [flat_map]. constructor; [|constructor]. split; [|exact QQ]. cbn [fst snd]. unfold builder_new in BQ. destruct (build_query n t) eqn:X; try discriminate. cbn in BQ. congruence. }
  destruct (doh_drive e dbg reparse trap fetch endpoint data n t resp _ T6 HA HK HN HF HS 11 [] 0 {| w_builder := builder_init; w_queue := [q] |} (linv_init data n t) Q0 (le_n _)) as (R & bf & urls & L & SE & U).
  cbn [app skipn] in L, U.
  destruct (linv_finish _ _ _ _ _ _ HA HK HN _ _ L) as (ttl & FP & _).
  assert (P : Permutation (qof n t R) (questions n t (map zn_name zones))).
  { unfold qof, questions. constructor. apply Permutation_flat_map. eapply linv_final; eassumption. }
  destruct (live_checked e dbg zones answers n t data resp _ NT SN W SV HA HW P) as (fuel0 & v & E & RV & PS).
  assert (VB : forall fuel, (fuel0 <= fuel)%nat -> verify_byte_stream e dbg fuel (write_all (flat_map (dataq data) (qof n t R))) = Ok (verified_json v)).
  { intros fuel LF. unfold verify_byte_stream. change (write_all (flat_map (dataq data) (qof n t R))) with (flat_map (fun rt => write_rr (fst rt) (snd rt)) (flat_map (fun q => data (fst q) (snd q)) (qof n t R))). rewrite (PS dbg).
    rewrite (verify_mono e dbg _ fuel0 fuel), (E dbg); [reflexivity|rewrite (E dbg); discriminate|exact LF]. }
  assert (HV : Forall Held (vr_rrs v) /\ Forall (fun r => ~ is_rrsig r) (vr_rrs v)).
  { eapply verified_not_rrsig; [|exact (E dbg)]. apply Forall_forall. intros r I. apply in_map_iff in I as (rt & <- & I). apply in_flat_map in I as (p & Ip & I).
    apply wf_held. eapply HW; [|exact I]. eapply li_asked; [exact L|exact Ip]. }
  destruct (result_shown v) as (j & J & DJ); [tauto|tauto| |].
  { apply Forall_forall. intros r I. apply RV in I as (a & Ia & Ir & _). rewrite Forall_forall in NB. specialize (NB a Ia). rewrite Forall_forall in NB. auto. }
  exists (qof n t R), urls, v, (verified_json v), j, fuel0. split; [exact P|]. split; [exact U|]. split; [exact RV|]. split; [exact J|]. split; [exact DJ|].
  intros k fuel LK LF. unfold lookup_doh. rewrite (proj2 (type_spec _ _) T), completed_eq. unfold init_proof_builder. rewrite completed_eq, completed_twice, D, BQ. cbn [obind].
  rewrite SE by exact LK. unfold doh_end. rewrite FP. unfold check_proof. rewrite (VB fuel LF). reflexivity.
Qed.

(** The bound on verification is immaterial. *)
Lemma doh_mono e dbg reparse trap fetch endpoint k domain ty f f' : fst (lookup_doh e dbg f reparse trap fetch endpoint k domain ty) <> JNever -> (f <= f')%nat ->
  lookup_doh e dbg f' reparse trap fetch endpoint k domain ty = lookup_doh e dbg f reparse trap fetch endpoint k domain ty.
Proof.
  intros H L. unfold lookup_doh in *. destruct ty as [ty|]; [|reflexivity]. destruct (type_number ty) as [t|]; [|reflexivity].
  destruct (init_proof_builder _ t) as [[w|]| | |]; try reflexivity. revert H. generalize 0%nat as i. generalize 0%N as p. revert w. induction k as [|k IH]; intros w p i H; [reflexivity|].
  cbn [send_next_query] in *. destruct (get_next_query w) as [[q|] w'].
  - destruct (fetch i (doh_url endpoint q)) as [b|]; [|reflexivity]. destruct (process_query_response dbg w' b) as [w2| | |]; try reflexivity.
    rewrite IH; [reflexivity|]. destruct (send_next_query e dbg f reparse trap fetch endpoint k w2 (p + 1 - 1) (Datatypes.S i)). exact H.
  - destruct (p =? 0); [|reflexivity]. destruct (get_unverified_proof w') as [pr|]; [|reflexivity]. f_equal. cbn [fst] in H. unfold check_proof, verify_byte_stream in *.
    destruct (parse_rr_stream dbg pr) as [rrs| | |]; try reflexivity. rewrite (verify_mono e dbg rrs f f'); [reflexivity| |exact L].
    intros E. rewrite E in H. apply H. reflexivity.
Qed.
