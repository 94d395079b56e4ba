(** Concrete responses for the examples and refutations of Prop_Query and Prop_Builder. *)
From Verif Require Import Base BaseP NameM NameSpec NameP WireM WireSpec RRM SerM RecSpec RecP RecP2 RecP3 HeldP ValSpec ValM ValW ValP QueryM QBufP QuerySpec QueryP QueryP2 QueryP3 QueryP4.
From Coq Require Import String.
Local Open Scope N_scope.

(** A response with flags [f] and the question ". A IN"; a record. *)
Definition q_msg (f an au : N) (body : list N) : list N :=
  u16 0 ++ u16 f ++ u16 1 ++ u16 an ++ u16 au ++ u16 0 ++ [0; 0; 1; 0; 1] ++ body.
Definition q_rec (owner : list N) (ty ttl : N) (data : list N) : list N :=
  owner ++ u16 ty ++ u16 1 ++ u32 ttl ++ u16 (length_of data) ++ data.
(** QR, RD, RA and AD. *)
Definition q_ok : N := 33184.
Definition q_a (ttl : N) : list N := q_rec [1; 120; 0] 1 ttl [127; 0; 0; 1].
(** An RRSIG over x. A by the zone with the given name. *)
Definition q_sig (ttl : N) (signer : list N) : list N :=
  q_rec [1; 120; 0] 46 ttl (u16 1 ++ [8; 1] ++ u32 3600 ++ u32 2000000000 ++ u32 1000000000 ++ u16 1 ++ signer ++ [1; 2; 3]).

(** An answer and its RRSIGs by the given zones (of one letter). *)
Definition signers (l : list N) : list N := q_msg q_ok (1 + len l) 0 (q_a 60 ++ flat_map (fun c => q_sig 60 [1; c; 0]) l).
Ltac checks := cbn zeta; repeat match goal with |- _ /\ _ => split end; vm_compute; repeat match goal with |- _ /\ _ => split end; reflexivity.

(** Running the builder. *)
Definition step (dbg : bool) (st : list (list N * outcome unit (list qbuf)) * builder) (m : list N) :=
  let '(r, b) := process_response dbg (snd st) m in (fst st ++ [(m, r)], b).
Definition exec (dbg : bool) (b : builder) (ms : list (list N)) := fold_left (step dbg) ms ([], b).
Definition fine (tr : list (list N * outcome unit (list qbuf))) : bool :=
  forallb (fun c => match snd c with Panic | Loop => false | _ => true end) tr.
Lemma exec_snoc dbg b ms m : exec dbg b (ms ++ [m]) = step dbg (exec dbg b ms) m.
Proof. unfold exec. rewrite fold_left_app. reflexivity. Qed.
Lemma exec_calls dbg b ms : fine (fst (exec dbg b ms)) = true -> Calls dbg b (fst (exec dbg b ms)) (snd (exec dbg b ms)).
Proof.
  induction ms as [|m ms IH] using rev_ind; intros H; [constructor|].
  rewrite exec_snoc in *. unfold step in *. destruct (process_response dbg (snd (exec dbg b ms)) m) as [r b'] eqn:P. cbn [fst snd] in *.
  unfold fine in H. rewrite forallb_app in H. apply andb_true_iff in H. destruct H as [H1 H2]. cbn in H2.
  econstructor; [apply IH; exact H1|exact P| |]; intros ->; discriminate H2.
Qed.
Lemma exec_bytes dbg b ms : Forall is_bytes ms -> Forall (fun c => is_bytes (fst c)) (fst (exec dbg b ms)).
Proof.
  induction ms as [|m ms IH] using rev_ind; intros H; [constructor|].
  rewrite exec_snoc. unfold step. destruct (process_response dbg (snd (exec dbg b ms)) m) as [r b']. cbn [fst].
  apply Forall_app in H. destruct H as [H1 H2]. apply Forall_app. split; [auto|]. constructor; [|constructor]. apply Forall_inv in H2. exact H2.
Qed.
Ltac bytes_list := repeat (apply Forall_cons; [apply is_bytes_ok; vm_compute; reflexivity|]); apply Forall_nil.
Lemma forallb_ok (tr : list (list N * outcome unit (list qbuf))) : forallb (fun c => is_ok (snd c)) tr = true -> Forall (fun c => is_ok (snd c) = true) tr.
Proof. intros H. apply Forall_forall. rewrite forallb_forall in H. exact H. Qed.

Definition root_query : qbuf := match build_query [46] 1 with Ok q => q | _ => new_zeroed 0 end.
Lemma root_builder : builder_new [46] 1 = Ok (builder_init, root_query).
Proof. vm_compute. reflexivity. Qed.

(** ** C39: RCODE 8 (NXRRSET) *)
Definition m_rcode8 : list N := q_msg (32800 + 8) 1 0 (q_a 60).
Lemma rcode8_refuted : ~ (forall dbg b m qs b', is_bytes m -> process_response dbg b m = (Ok qs, b') ->
  exists f ans auth, Message (negb dbg) m f ans auth /\ flag_rcode f = 0).
Proof.
  intros H. destruct (H false builder_init m_rcode8 [] (snd (process_response false builder_init m_rcode8))) as (f & ans & auth & [f0 ex nb n qty qcl ab ans0 ub auth0 rest E _ _ _] & F).
  - apply is_bytes_ok. vm_compute. reflexivity.
  - vm_compute. reflexivity.
  - change m_rcode8 with (u16 0 ++ u16 32808 ++ skipn 4 m_rcode8) in E.
    apply app_inv_len in E; [|reflexivity]. destruct E as [_ E]. apply app_inv_len in E; [|reflexivity]. destruct E as [E _].
    apply u16_inj in E. subst f0. vm_compute in F. discriminate F.
Qed.

(** ** C43 *)
(* One record, owned by the one-octet label ".". *)
Definition m_dot : list N := q_msg q_ok 1 0 (q_rec [1; 46; 0] 1 60 [127; 0; 0; 1]).
Definition m_empty_txt : list N := q_msg q_ok 1 0 (q_rec [1; 120; 0] 16 60 []).
(* An RRSIG whose signer's name is a pointer into its signature. *)
Definition big_label (n : nat) : list N := N.of_nat n :: repeat 97 n.
Definition m_big : list N :=
  q_msg q_ok 1 0 ([0; 0; 46; 0; 1; 0; 0; 0; 60] ++ u16 65507 ++
    u16 1 ++ [8; 1] ++ u32 3600 ++ u32 2000000000 ++ u32 1000000000 ++ u16 1 ++ [192; 48] ++
    (big_label 63 ++ big_label 63 ++ big_label 63 ++ big_label 62 ++ [0] ++ repeat 0 (N.to_nat 65231))).
Definition m_plain (ttl : N) : list N := q_msg q_ok 1 0 (q_a ttl).


(** Reading the items of a response. *)
Fixpoint reader (dbg : bool) (m : list N) (n : nat) (read : list N) : option (list (RR * N) * list N) :=
  match n with
  | O => Some ([], read)
  | S n' => match parse_wire_packet_rr dbg read m with
            | Ok (r, t, read') => match reader dbg m n' read' with Some (l, rest) => Some ((r, t) :: l, rest) | None => None end
            | _ => None
            end
  end.
Definition items_of (dbg : bool) (m : list N) : option (list (RR * N)) :=
  match read_header m with
  | Ok (an, au, read) => match reader dbg m (N.to_nat an) read with
    | Some (ans, read) => match reader dbg m (N.to_nat au) read with Some (auth, _) => Some (contribution ans auth) | None => None end
    | None => None end
  | _ => None
  end.
Lemma reader_records dbg m n : forall read l rest, bytes_ok read = true -> reader dbg m n read = Some (l, rest) ->
  exists b, read = b ++ rest /\ Records (negb dbg) m b l /\ List.length l = n.
Proof.
  induction n as [|n IH]; intros read l rest B H; cbn [reader] in H.
  - injection H as <- <-. exists []. split; [reflexivity|]. split; [constructor|reflexivity].
  - destruct (parse_wire_packet_rr dbg read m) as [[[r t] read']| | |] eqn:E; try discriminate H.
    destruct (reader dbg m n read') as [[l' rest']|] eqn:E2; [|discriminate H]. injection H as <- <-.
    apply parse_rr_sound in E; [|exact B]. destruct E as (rec & -> & Re). apply bytes_ok_app_inv in B. destruct B as [_ B].
    apply IH in E2; [|exact B]. destruct E2 as (b & -> & R & L). exists (rec ++ b). rewrite app_assoc.
    split; [reflexivity|]. split; [constructor; assumption|cbn; congruence].
Qed.
Lemma items_response dbg m items : is_bytes m -> items_of dbg m = Some items -> Response (negb dbg) m items.
Proof.
  intros B H. apply is_bytes_ok in B. unfold items_of in H. destruct (read_header m) as [[[an au] read]| | |] eqn:Hh; try discriminate H.
  apply header_sound in Hh; [|exact B]. destruct Hh as (f & ex & nb & n & qty & qcl & E & Nn & Lf & F & Na).
  assert (Br : bytes_ok read = true).
  { rewrite E in B. repeat (apply bytes_ok_app_inv in B; destruct B as [_ B]). exact B. }
  destruct (reader dbg m (N.to_nat an) read) as [[ans r1]|] eqn:S1; [|discriminate H].
  apply reader_records in S1; [|exact Br]. destruct S1 as (b & -> & R1 & L1). apply bytes_ok_app_inv in Br. destruct Br as [_ Br].
  destruct (reader dbg m (N.to_nat au) r1) as [[auth r2]|] eqn:S2; [|discriminate H].
  apply reader_records in S2; [|exact Br]. destruct S2 as (b2 & -> & R2 & L2). injection H as <-.
  exists f, ans, auth. split.
  - econstructor; [|exact Nn|exact R1|exact R2]. rewrite E at 1. rewrite L1, L2, !N2Nat.id. rewrite <- ?app_assoc. reflexivity.
  - rewrite flags_spec in F by exact Lf. apply flags_want_iff in F.
    destruct F as (F1 & F2 & F3 & F4 & F5). repeat (split; [assumption|]). split; [|reflexivity].
    intros ->. cbn in L1. lia.
Qed.
Fixpoint itemss_of (dbg : bool) (ms : list (list N)) : option (list (list (RR * N))) :=
  match ms with
  | [] => Some []
  | m :: t => match items_of dbg m, itemss_of dbg t with Some x, Some y => Some (x :: y) | _, _ => None end
  end.
Lemma itemss_responses dbg ms : forall itemss, Forall is_bytes ms -> itemss_of dbg ms = Some itemss -> Forall2 (Response (negb dbg)) ms itemss.
Proof.
  induction ms as [|m t IH]; intros its B H; cbn [itemss_of] in H.
  - injection H as <-. constructor.
  - inversion B; subst. destruct (items_of dbg m) eqn:E1; [|discriminate H]. destruct (itemss_of dbg t) eqn:E2; [|discriminate H].
    injection H as <-. constructor; [apply items_response; assumption|auto].
Qed.
Lemma exec_msgs dbg b ms : map fst (fst (exec dbg b ms)) = ms.
Proof.
  induction ms as [|m ms IH] using rev_ind; [reflexivity|]. rewrite exec_snoc. unfold step.
  destruct (process_response dbg (snd (exec dbg b ms)) m). cbn [fst]. rewrite map_app, IH. reflexivity.
Qed.
(** One check for all hypotheses of [ParsesBack] about the run. *)
Definition run_ok (ms : list (list N)) : bool :=
  forallb (fun m => bytes_ok m && (len m <=? 65535)) ms && forallb (fun c => is_ok (snd c)) (fst (exec false builder_init ms)).
Definition finished (ms : list (list N)) := finish_proof (snd (exec false builder_init ms)).
Lemma parses_back_counter Q ms proof ttl itemss : run_ok ms = true -> finished ms = Ok (proof, ttl) -> itemss_of false ms = Some itemss ->
  Forall Q (map fst (List.concat itemss)) -> parse_rr_stream false proof <> Ok (map fst (List.concat itemss)) -> ~ ParsesBack Q.
Proof.
  intros OK F I HQ NP H. unfold run_ok in OK. apply andb_true_iff in OK. destruct OK as [O1 O2].
  assert (B : Forall (fun m => is_bytes m /\ length_of m <= 65535) ms).
  { apply Forall_forall. intros m M. rewrite forallb_forall in O1. apply O1 in M. apply andb_true_iff in M. destruct M as [M1 M2].
    split; [apply is_bytes_ok; exact M1|apply N.leb_le; exact M2]. }
  assert (B1 : Forall is_bytes ms) by (eapply Forall_impl; [|exact B]; intros a [X _]; exact X).
  apply NP. eapply (H false [46] 1 builder_init root_query _ _ proof ttl itemss root_builder).
  - apply (exec_calls false builder_init ms). unfold fine. rewrite forallb_forall in O2. apply forallb_forall. intros c M. apply O2 in M.
    destruct (snd c); try discriminate M; reflexivity.
  - apply Forall_forall. intros c M. rewrite Forall_forall in B. apply B. rewrite <- (exec_msgs false builder_init ms). apply in_map. exact M.
  - exact F.
  - apply forallb_ok. exact O2.
  - rewrite exec_msgs. apply itemss_responses; assumption.
  - exact HQ.
Qed.

Lemma empty_label_back_refuted : ~ ParsesBack (fun r => Held r /\ fits_rr r /\ nonempty_txt r).
Proof.
  eapply (parses_back_counter _ [m_dot]); [vm_compute; reflexivity|vm_compute; reflexivity|vm_compute; reflexivity| |vm_compute; discriminate].
  cbn [List.concat app map fst]. constructor; [|constructor]. split; [|split; exact I]. unfold Held. cbn [typed_rr a_name a_addr].
  split; [vm_compute; reflexivity|]. split; [reflexivity|]. apply is_bytes_ok. reflexivity.
Qed.
Lemma empty_txt_back_refuted : ~ ParsesBack (fun r => typed_rr proper_name r /\ fits_rr r).
Proof.
  eapply (parses_back_counter _ [m_empty_txt]); [vm_compute; reflexivity|vm_compute; reflexivity|vm_compute; reflexivity| |vm_compute; discriminate].
  cbn [List.concat app map fst]. constructor; [|constructor]. split; [|vm_compute; discriminate]. cbn [typed_rr tx_name tx_data].
  split; [exact (proper_w [[120]] eq_refl)|constructor].
Qed.
Definition big_labels : list (list N) := [repeat 97 63; repeat 97 63; repeat 97 63; repeat 97 62].
Lemma big_back_refuted : ~ ParsesBack (fun r => typed_rr proper_name r /\ nonempty_txt r).
Proof.
  set (ms := [m_big; m_plain 60; m_plain 60]).
  assert (F0 : is_ok (finished ms) = true) by (vm_compute; reflexivity).
  assert (I0 : match itemss_of false ms with Some _ => true | None => false end = true) by (vm_compute; reflexivity).
  destruct (finished ms) as [[proof ttl]| | |] eqn:F; try discriminate F0.
  destruct (itemss_of false ms) as [its|] eqn:I; try discriminate I0.
  apply (parses_back_counter _ ms proof ttl its); [vm_compute; reflexivity|exact F|exact I| |].
  - assert (X : match itemss_of false ms with Some l => forallb (fun r => match r with
        | RR_A x => bytes_eqb (a_name x) [120; 46] && (len (a_addr x) =? 4) && bytes_ok (a_addr x)
        | RR_RRSig s => bytes_eqb (rs_name s) [46] && bytes_eqb (rs_key_name s) (dotted big_labels) && bytes_ok (rs_signature s) &&
            (rs_ty s =? 1) && (rs_alg s =? 8) && (rs_labels s =? 1) && (rs_orig_ttl s =? 3600) && (rs_expiration s =? 2000000000)
            && (rs_inception s =? 1000000000) && (rs_key_tag s =? 1)
        | _ => false end) (map fst (List.concat l)) | None => false end = true) by (vm_compute; reflexivity).
    rewrite I in X. apply Forall_forall. intros r M. rewrite forallb_forall in X. apply X in M. clear X.
    destruct r as [x|x|x|x|x|x|x|x|x|x|x|x]; try discriminate M; rewrite !andb_true_iff in M.
    + destruct M as [[M1 M2] M3]. apply bytes_eqb_eq in M1. apply N.eqb_eq in M2. apply is_bytes_ok in M3. split; [|exact Logic.I].
      cbn [typed_rr]. rewrite M1. split; [exact (proper_w [[120]] eq_refl)|]. auto.
    + destruct M as [[[[[[[[[M1 M2] M3] M4] M5] M6] M7] M8] M9] M10]. apply bytes_eqb_eq in M1, M2. apply is_bytes_ok in M3.
      rewrite !N.eqb_eq in *. split; [|exact Logic.I]. cbn [typed_rr]. rewrite M1, M2, M4, M5, M6, M7, M8, M9, M10.
      split; [exact (proper_w [] eq_refl)|]. do 7 (split; [reflexivity|]). split; [exact (proper_w big_labels eq_refl)|exact M3].
  - intros X. assert (Y : match finished ms with Ok (p, _) => match parse_rr_stream false p with Ok _ => true | _ => false end | _ => true end = false) by (vm_compute; reflexivity).
    rewrite F, X in Y. discriminate Y.
Qed.

(** ** C41, C44, C45: a response which is rejected after some of its records were kept *)
Definition m_cut (ttl : N) : list N := q_msg q_ok 2 0 (q_a ttl ++ [1]).
Definition m_cut_sig : list N := q_msg q_ok 2 0 (q_sig 60 [1; 97; 0] ++ [1]).
Lemma exec_run ms : fine (fst (exec false builder_init ms)) = true -> forallb (fun m => bytes_ok m) ms = true ->
  Calls false builder_init (fst (exec false builder_init ms)) (snd (exec false builder_init ms)) /\
  Forall (fun c => is_bytes (fst c)) (fst (exec false builder_init ms)).
Proof.
  intros F B. split; [apply exec_calls; exact F|]. apply exec_bytes. apply Forall_forall. intros m M. rewrite forallb_forall in B. apply is_bytes_ok. auto.
Qed.
Lemma a_wf : wf_rr (w_a "x.").
Proof. split; [|split; exact I]. split; [exact (proper_w [[120]] eq_refl)|]. split; [reflexivity|]. apply is_bytes_ok. reflexivity. Qed.

Lemma ttl_refuted : ~ (forall dbg n ty b0 q0 tr b proof ttl l, builder_new n ty = Ok (b0, q0) -> Calls dbg b0 tr b ->
  Forall (fun c => is_bytes (fst c)) tr -> finish_proof b = Ok (proof, ttl) ->
  Forall (fun rt => wf_rr (fst rt) /\ snd rt < 4294967296) l -> proof = flat_map (fun rt => write_rr (fst rt) (snd rt)) l ->
  is_min ttl (map snd l)).
Proof.
  intros H. destruct (exec_run [m_cut 5; m_plain 60]) as [C B]; [vm_compute; reflexivity|vm_compute; reflexivity|].
  assert (F : finish_proof (snd (exec false builder_init [m_cut 5; m_plain 60])) = Ok (write_rr (w_a "x.") 5 ++ write_rr (w_a "x.") 60 ++ [], 60)) by (vm_compute; reflexivity).
  destruct (H false [46] 1 builder_init root_query _ _ _ _ [(w_a "x.", 5); (w_a "x.", 60)] root_builder C B F) as [_ M].
  - constructor; [split; [exact a_wf|reflexivity]|]. constructor; [split; [exact a_wf|reflexivity]|constructor].
  - reflexivity.
  - apply Forall_inv in M. vm_compute in M. apply M. reflexivity.
Qed.
Lemma err_refuted : ~ (forall dbg b m u b' m2, is_bytes m -> is_bytes m2 -> process_response dbg b m = (Err u, b') ->
  finish_proof (snd (process_response dbg b' m2)) = finish_proof (snd (process_response dbg b m2))).
Proof.
  intros H. specialize (H false builder_init (m_cut 5) tt (snd (process_response false builder_init (m_cut 5))) (m_plain 60)).
  assert (X : finish_proof (snd (process_response false (snd (process_response false builder_init (m_cut 5))) (m_plain 60))) =
              finish_proof (snd (process_response false builder_init (m_plain 60)))).
  { apply H; [apply is_bytes_ok; vm_compute; reflexivity..|vm_compute; reflexivity]. }
  vm_compute in X. discriminate X.
Qed.
Lemma unqueried_refuted : ~ (forall dbg n ty b0 q0 tr b proof ttl rs s, builder_new n ty = Ok (b0, q0) -> Calls dbg b0 tr b ->
  Forall (fun c => is_bytes (fst c)) tr -> finish_proof b = Ok (proof, ttl) -> parse_rr_stream false proof = Ok rs ->
  In (RR_RRSig s) rs -> exists q, In q (q0 :: handed tr) /\ Query (rs_key_name s) 48 (qb_deref q)).
Proof.
  intros H. destruct (exec_run [m_cut_sig; m_plain 60]) as [C B]; [vm_compute; reflexivity|vm_compute; reflexivity|].
  destruct (finished [m_cut_sig; m_plain 60]) as [[proof ttl]| | |] eqn:F; [|exfalso; vm_compute in F; discriminate F..].
  destruct (parse_rr_stream false proof) as [rs| | |] eqn:P; [|exfalso; vm_compute in F; injection F as <- <-; vm_compute in P; discriminate P..].
  assert (exists s, In (RR_RRSig s) rs /\ rs_key_name s = bs "a.") as (s & I & K).
  { vm_compute in F. injection F as <- <-. vm_compute in P. injection P as <-. eexists. split; [left; reflexivity|reflexivity]. }
  destruct (H false [46] 1 builder_init root_query _ _ _ _ rs s root_builder C B F P I) as (q & Q & (ls & L & E)).
  assert (Hq : q = root_query). { assert (X : handed (fst (exec false builder_init [m_cut_sig; m_plain 60])) = []) by (vm_compute; reflexivity). rewrite X in Q. destruct Q as [Q|[]]. auto. }
  subst q. rewrite K in L. destruct (initial_query [46] 1 builder_init root_query eq_refl) as (ls' & L' & E'); [lia|exact root_builder|].
  rewrite E in E'. clear -E'. apply app_inv_len in E'; [|reflexivity]. destruct E' as [_ E'].
  apply (f_equal (@rev N)) in E'. rewrite !rev_app_distr in E'. cbn [rev app u16] in E'. vm_compute (48 / 256) in E'. vm_compute (48 mod 256) in E'.
  vm_compute (1 mod 256) in E'. discriminate E'.
Qed.
Definition m_bad_nsec : list N := q_msg q_ok 1 0 (q_rec [0] 47 60 ([0; 255; 33] ++ repeat 0 33)).
Lemma no_panic_refuted : ~ (forall dbg m, is_bytes m -> length_of m <= 65535 -> fst (process_response dbg builder_init m) <> Panic).
Proof.
  intros H. apply (H false m_bad_nsec); [apply is_bytes_ok; vm_compute; reflexivity|vm_compute; discriminate|vm_compute; reflexivity].
Qed.
Lemma held_back_refuted : ~ ParsesBack Held.
Proof.
  intros H. apply empty_label_back_refuted. intros dbg n ty b0 q0 tr b proof ttl its E C B F A R W.
  apply (H dbg n ty b0 q0 tr b proof ttl its E C B F A R). eapply Forall_impl; [|exact W]. intros r [X _]. exact X.
Qed.
