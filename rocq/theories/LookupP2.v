(** A proof builder asks its questions in one order only: what it sends is determined by what it has read. *)
From Verif Require Import Base BaseP NameM NameSpec NameP WireM WireP RRM SerM ValM RecSpec RecP2 ValSpec ResolveSpec ValP4 QueryM QuerySpec QueryP QueryP4 AcceptSpec ServerP LiveSpec LiveP LiveP2 LiveP3 LookupSpec LookupP.
From Coq Require Import Permutation Lia Arith.
Local Open Scope N_scope.

Lemma read_exact_more n : forall segs more d r, read_exact n segs = Some (d, r) -> read_exact n (segs ++ more) = Some (d, r ++ more).
Proof.
  intros segs. revert n. induction segs as [|s t IH]; intros n more d r H; cbn [read_exact app] in *.
  - destruct (n =? 0) eqn:Z; [|discriminate H]. injection H as <- <-. apply N.eqb_eq in Z. subst n. destruct more; reflexivity.
  - destruct (n =? 0); [injection H as <- <-; reflexivity|]. destruct (len s <=? n); [|injection H as <- <-; reflexivity].
    destruct (read_exact (n - len s) t) as [[d' r']|] eqn:E; [|discriminate H]. rewrite (IH _ more _ _ E). injection H as <- <-. reflexivity.
Qed.
Lemma read_response_more segs more q r : read_response segs = Some (q, r) -> read_response (segs ++ more) = Some (q, r ++ more).
Proof.
  unfold read_response. intros H. destruct (read_exact 2 segs) as [[lb s]|] eqn:E; [|discriminate H]. rewrite (read_exact_more _ _ more _ _ E).
  destruct (read_exact _ s) as [[d s']|] eqn:E2; [|discriminate H]. rewrite (read_exact_more _ _ more _ _ E2). injection H as <- <-. reflexivity.
Qed.
Lemma drive_sends dbg fuel : forall b segs sent, exists x, snd (drive dbg fuel b segs sent) = sent ++ x.
Proof.
  induction fuel as [|f IH]; intros b segs sent; cbn [drive]; (destruct (awaiting_responses b); [|exists []; symmetry; apply app_nil_r]).
  - exists []. symmetry. apply app_nil_r.
  - destruct (read_response segs) as [[q s]|]; [|exists []; symmetry; apply app_nil_r]. destruct (process_response dbg b (qb_deref q)) as [[qs|x| |] b']; try (exists []; symmetry; apply app_nil_r).
    destruct (IH b' s (sent ++ map (fun q => send_query (qb_deref q)) qs)) as [x ->]. rewrite <- app_assoc. eexists. reflexivity.
Qed.
Lemma drive_more dbg fuel more : forall b segs sent, exists x, snd (drive dbg fuel b (segs ++ more) sent) = snd (drive dbg fuel b segs sent) ++ x.
Proof.
  induction fuel as [|f IH]; intros b segs sent.
  - exists []. cbn [drive]. rewrite app_nil_r. destruct (awaiting_responses b); reflexivity.
  - destruct (read_response segs) as [[q s]|] eqn:E.
    + cbn [drive]. rewrite (read_response_more _ more _ _ E), E. destruct (awaiting_responses b); [|exists []; symmetry; apply app_nil_r].
      destruct (process_response dbg b (qb_deref q)) as [[qs|x| |] b']; try (exists []; symmetry; apply app_nil_r). apply IH.
    + destruct (drive_sends dbg (S f) b (segs ++ more) sent) as [x Ex]. rewrite Ex. cbn [drive]. rewrite E. destruct (awaiting_responses b); exists x; reflexivity.
Qed.
Lemma build_more dbg fuel n ty segs more : exists x, snd (build_proof dbg fuel n ty (segs ++ more)) = snd (build_proof dbg fuel n ty segs) ++ x.
Proof. unfold build_proof. destruct (builder_new n ty) as [[b q]| | |]; [apply drive_more|exists []; reflexivity ..]. Qed.

(** [frames]: the stream of the responses to these questions, a segment each. *)
Definition frames (resp : list N -> N -> list N) (qs : list (list N * N)) : list (list N) := map (fun q => frame (resp (fst q) (snd q))) qs.
Lemma frames_concat resp qs : concat (frames resp qs) = flat_map frame (map (fun q => resp (fst q) (snd q)) qs).
Proof. unfold frames. rewrite flat_map_concat_map, map_map. reflexivity. Qed.

Lemma forall2_nth {A B} (P : A -> B -> Prop) l m i x y : Forall2 P l m -> nth_error l i = Some x -> nth_error m i = Some y -> P x y.
Proof. intros F. revert i. induction F as [|a b l m Pab F IH]; intros [|i] E1 E2; try discriminate; cbn in *; [congruence|eauto]. Qed.
Lemma one_order data dbg n ty resp keys qs sent : name_try_from n = Some n -> ty < 65536 -> Answers data dbg n ty resp -> AllSigners data n ty keys -> (needed keys <= 10)%nat ->
  (forall q q' b, In q (questions n ty keys) -> In q' (questions n ty keys) -> Query (fst q) (snd q) b -> Query (fst q') (snd q') b -> q = q') ->
  Permutation qs (questions n ty keys) -> Forall2 (fun q f => exists b, Query (fst q) (snd q) b /\ f = frame b) qs sent ->
  (exists r, build_proof dbg 10 n ty (frames resp qs) = (r, sent)) ->
  exists ttl, build_proof dbg 10 n ty (frames resp qs) = (Ok (flat_map (fun rt => write_rr (fst rt) (snd rt)) (flat_map (fun q => data (fst q) (snd q)) qs), ttl), sent).
Proof.
  intros V T HA HK HN QI P F [r B]. destruct (live_built data dbg n ty resp keys V T HA HK HN) as (qs1 & sent1 & P1 & _ & F1 & D1 & E1).
  assert (L : length qs = length qs1) by (rewrite (Permutation_length P), (Permutation_length P1); reflexivity).
  assert (X : forall i, (i <= length qs1)%nat -> firstn i qs = firstn i qs1).
  { induction i as [|i IH]; intros Li; [reflexivity|]. specialize (IH ltac:(lia)).
    destruct (E1 i (frames resp (firstn i qs1)) ltac:(lia) (frames_concat _ _)) as (s1 & s2 & Es & B1 & Ls).
    destruct (nth_error qs i) as [q|] eqn:N1; [|apply nth_error_None in N1; lia]. destruct (nth_error qs1 i) as [q'|] eqn:N2; [|apply nth_error_None in N2; lia].
    rewrite (firstn_S _ _ _ N1), (firstn_S _ _ _ N2), IH. f_equal. f_equal.
    destruct (build_more dbg 10 n ty (frames resp (firstn i qs1)) (frames resp (skipn i qs))) as [x Bx]. unfold frames in Bx at 1 2. rewrite <- map_app, <- IH, firstn_skipn in Bx. fold (frames resp qs) in Bx.
    rewrite B in Bx. rewrite IH, B1 in Bx. cbn [snd] in Bx. destruct (nth_error s1 i) as [f|] eqn:N3; [|apply nth_error_None in N3; lia].
    assert (G1 : nth_error sent1 i = Some f) by (rewrite Es, nth_error_app1; [exact N3|exact Ls]).
    assert (G2 : nth_error sent i = Some f) by (rewrite Bx, nth_error_app1; [exact N3|exact Ls]).
    destruct (forall2_nth _ _ _ _ _ _ F N1 G2) as (b & Q & ->). destruct (forall2_nth _ _ _ _ _ _ F1 N2 G1) as (b' & Q' & Eb).
    assert (b = b') as <-. { unfold frame in Eb. apply u16_app_inv in Eb as [_ Eb]. exact Eb. }
    apply (QI q q' b); [apply (Permutation_in _ P); eapply nth_error_In; exact N1|apply (Permutation_in _ P1); eapply nth_error_In; exact N2|exact Q|exact Q']. }
  specialize (X (length qs1) (le_n _)). rewrite firstn_all, <- L, firstn_all in X. subst qs1.
  destruct (D1 (frames resp qs) []) as (ttl & Bd & _); [rewrite frames_concat; symmetry; apply app_nil_r|]. exists ttl. rewrite Bd in B. injection B as _ <-. exact Bd.
Qed.

(** What a lookup which [Finds] goes through. *)
Lemma finds_verified e dbg zones answers n ty data resp m : proper_name n -> ty < 65536 -> ty <> 43 /\ ty <> 48 -> SortsNeeds e ->
  WellSigned e zones answers (FirstVouched e) -> Serves zones answers n ty data -> Answers data dbg n ty resp ->
  (forall m t rt, Asked data n ty m t -> In rt (data m t) -> wf_rr (fst rt)) -> (length zones <= 5)%nat ->
  (forall q q' b, In q (questions n ty (map zn_name zones)) -> In q' (questions n ty (map zn_name zones)) -> Query (fst q) (snd q) b -> Query (fst q') (snd q') b -> q = q') ->
  Finds e dbg zones answers n ty resp m -> exists v k l, resolve_name (vr_rrs v) k n = Ok l /\
    (forall r, In r (vr_rrs v) <-> exists a, In a answers /\ In r (an_recs a) /\ an_ty a <> 47 /\ an_ty a <> 50) /\
    (forall r, In r l <-> exists a, In a answers /\ In r (an_recs a) /\ an_name a = m /\ an_ty a <> 47 /\ an_ty a <> 50).
Proof.
  intros Pn Lt Nt SN WS SV AN W L QI (qs & sent & P & F & H). assert (Vn : name_try_from n = Some n) by (apply proper_name_valid; exact Pn).
  destruct (H (frames resp qs) []) as (proof & ttl & B & H'); [rewrite frames_concat; symmetry; apply app_nil_r|].
  destruct (one_order data dbg n ty resp _ qs sent Vn Lt AN (live_signers e zones answers n ty data WS SV Nt) (zones_needed _ _ _ _ WS L) QI P F (ex_intro _ _ B)) as (ttl' & B').
  rewrite B' in B. injection B as <- _. destruct (H' false) as (inp & fuel & v & k & l & E1 & E2 & E3 & R). clear H H'.
  destruct (live_checked e dbg zones answers n ty data resp qs Nt SN WS SV AN W P) as (fuel' & v' & E & Rv & PS). rewrite PS in E1. injection E1 as <-. specialize (E false).
  assert (v' = v) as ->. { destruct (Nat.le_ge_cases fuel fuel') as [G|G]; [rewrite (verify_mono e false _ fuel fuel') in E; [congruence|rewrite E2; discriminate|exact G]|rewrite (verify_mono e false _ fuel' fuel) in E2; [congruence|rewrite E; discriminate|exact G]]. }
  exists v, k, l. auto.
Qed.
