(** Answers in any order: the proof, over TCP, and the verdict. *)
From Verif Require Import Base BaseP NameM NameSpec NameP WireM WireSpec RRM SerM RecSpec RecP RecP2 ValSpec ValM HeldP QueryM QuerySpec QBufP QueryP QueryP2 QueryP3 QueryP4 OrderSpec AcceptSpec AcceptP5 LiveSpec LiveP ArriveSpec ArriveP.
From Coq Require Import Lia Permutation PeanoNat.
Local Open Scope N_scope.

Lemma finish_inv b p ttl : finish_proof b = Ok (p, ttl) -> pb_pending b = 0 /\ pb_made b <= 10 /\ p = pb_proof b /\ ttl = pb_min_ttl b.
Proof.
  unfold finish_proof, MAX_REQUESTS. destruct (N.ltb_spec 0 (pb_pending b)); cbn [orb]; [discriminate |]. destruct (N.ltb_spec 10 (pb_made b)); [discriminate |]. intros [= <- <-]. repeat split; lia.
Qed.
Lemma finish_ok b : pb_pending b = 0 -> pb_made b <= 10 -> finish_proof b = Ok (pb_proof b, pb_min_ttl b).
Proof. intros P M. unfold finish_proof, MAX_REQUESTS. rewrite P. change (0 <? 0) with false. cbn [orb]. replace (10 <? pb_made b) with false by (symmetry; apply N.ltb_ge; exact M). reflexivity. Qed.
Lemma new_init n ty b0 q0 : builder_new n ty = Ok (b0, q0) -> b0 = builder_init.
Proof. unfold builder_new. destruct (build_query n ty); cbn [obind]; try discriminate. intros [= <- _]. reflexivity. Qed.

Lemma any_order dbg answer n ty b0 q0 order b order' b' p ttl : (forall q, is_bytes (answer q)) -> builder_new n ty = Ok (b0, q0) ->
  Arrive dbg answer b0 [qb_deref q0] order b [] -> finish_proof b = Ok (p, ttl) -> Arrive dbg answer b0 [qb_deref q0] order' b' [] ->
  Permutation order order' /\ exists p' items items', finish_proof b' = Ok (p', ttl) /\
    Brings dbg answer order items /\ Brings dbg answer order' items' /\ Permutation items items' /\ p = write_all items /\ p' = write_all items'.
Proof.
  intros HB E A F A'. apply new_init in E as ->. apply finish_inv in F as (Pn & M & -> & ->).
  pose proof (sinv_init dbg answer (qb_deref q0)) as S0. pose proof (sinv_run dbg answer _ HB _ _ _ _ _ A _ S0) as S1. pose proof (sinv_run dbg answer _ HB _ _ _ _ _ A' _ S0) as S2. cbn [app] in S1, S2.
  pose proof (run_incl dbg answer _ HB _ _ S1 M _ _ _ _ _ A' [] S0 (incl_nil_l _)) as I2. cbn [app] in I2. rewrite app_nil_r in I2.
  pose proof (budget dbg answer _ _ _ S1 M _ _ _ S2 I2) as M2.
  pose proof (run_incl dbg answer _ HB _ _ S2 M2 _ _ _ _ _ A [] S0 (incl_nil_l _)) as I1. cbn [app] in I1. rewrite app_nil_r in I1.
  destruct (same_order dbg answer _ _ _ _ _ S1 M S2 I2 I1) as (PT & P0 & _ & ET & i1 & i2 & B1 & B2 & PI & EP1 & EP2). split; [exact PT |]. exists (pb_proof b'), i1, i2. rewrite ET. split; [apply finish_ok; assumption |]. auto.
Qed.
Lemma any_start dbg answer n ty b0 q0 order b order' b' w p ttl : (forall q, is_bytes (answer q)) -> builder_new n ty = Ok (b0, q0) ->
  Arrive dbg answer b0 [qb_deref q0] order b [] -> finish_proof b = Ok (p, ttl) -> Arrive dbg answer b0 [qb_deref q0] order' b' w ->
  incl (order' ++ w) order /\ (forall q, In q w -> exists qs b2, process_response dbg b' (answer q) = (Ok qs, b2)) /\
  exists more b2, Arrive dbg answer b' w more b2 [].
Proof.
  intros HB E A F A'. apply new_init in E as ->. apply finish_inv in F as (Pn & M & -> & ->).
  pose proof (sinv_init dbg answer (qb_deref q0)) as S0. pose proof (sinv_run dbg answer _ HB _ _ _ _ _ A _ S0) as S1. pose proof (sinv_run dbg answer _ HB _ _ _ _ _ A' _ S0) as S2. cbn [app] in S1, S2.
  pose proof (run_incl dbg answer _ HB _ _ S1 M _ _ _ _ _ A' [] S0 (incl_nil_l _)) as I2. cbn [app] in I2. split; [exact I2 |]. assert (I3 : incl order' order) by (intros x Hx; apply I2; apply in_or_app; left; exact Hx). split.
  - intros q Iq. apply in_split in Iq as (w1 & w2 & ->). eapply progress; eauto.
  - apply (goes_on dbg answer _ HB _ _ S1 M 10 order'); [exact S2 | exact I3 | lia].
Qed.

(** ** Over TCP *)
Lemma arrive_made dbg answer b w order b' w' : (forall q, is_bytes (answer q)) -> Arrive dbg answer b w order b' w' -> pb_made b <= pb_made b'.
Proof.
  intros HB. induction 1 as [| b w1 q w2 qs b1 order b2 w P A IH]; [lia |]. apply process_ok in P; [| apply HB]. destruct P as (items & new & qs' & _ & _ & _ & -> & _). cbn [pb_made] in IH. lia.
Qed.
Lemma arrive_drive dbg answer b w order b' : (forall q, is_bytes (answer q)) -> Arrive dbg answer b w order b' [] -> pb_pending b' = 0 -> pb_made b' <= 10 ->
  Forall (fun q => length_of (answer q) <= 65535) order ->
  exists hs, Permutation order (w ++ hs) /\ forall fuel segs rest sent, (length order <= fuel)%nat -> concat segs = flat_map frame (map answer order) ++ rest ->
    drive dbg fuel b segs sent = (finish_proof b', sent ++ map send_query hs).
Proof.
  intros HB A. remember [] as w' eqn:Ew. revert Ew. induction A as [b w | b w1 q w2 qs b1 order b2 w P A IH]; intros -> P0 M FL.
  - exists []. split; [reflexivity |]. intros fuel segs rest sent _ _. assert (AW : awaiting_responses b = false) by (destruct (awaiting_responses b) eqn:X; [apply awaiting_spec in X as [X _]; contradiction | reflexivity]).
    cbn [map]. rewrite app_nil_r. destruct fuel; cbn [drive]; rewrite AW; reflexivity.
  - inversion_clear FL as [| ? ? Lq Lo]. destruct (IH eq_refl P0 M Lo) as (hs & PH & D). exists (map qb_deref qs ++ hs). split.
    { rewrite <- app_assoc in PH. rewrite <- app_assoc. cbn [app]. rewrite <- Permutation_middle. constructor. rewrite PH, <- app_assoc. reflexivity. }
    intros fuel segs rest sent Lf C. destruct fuel as [| fuel]; [cbn [length] in Lf; lia |]. cbn [map flat_map] in C. rewrite <- app_assoc in C. destruct (read_frame segs (answer q) _ Lq C) as (qb & segs' & RR & DQ & CR).
    pose proof (arrive_made _ _ _ _ _ _ _ HB A) as MM. pose proof P as P'. apply process_ok in P'; [| apply HB]. destruct P' as (items & new & qs' & _ & _ & Np & EB & _).
    assert (AW : awaiting_responses b = true) by (apply awaiting_spec; split; [exact Np |]; subst b1; cbn [pb_made] in MM; lia).
    cbn [drive]. rewrite AW, RR, DQ, P. cbn [length] in Lf. rewrite (D fuel segs' rest _ ltac:(lia) CR), <- app_assoc, map_app, map_map. reflexivity.
Qed.
Lemma sinv_length dbg answer q0 t b w : Sinv dbg answer q0 t b w -> (forall q, is_bytes (answer q)) -> pb_made b <= 10 -> (length q0 <= 283)%nat -> Forall (fun q => length_of q <= 65535) (t ++ w).
Proof.
  intros S HB M L0. apply Forall_forall. intros x Hx. apply (Permutation_in _ (si_queries _ _ _ _ _ _ S M)) in Hx as [<- | Hx]; [unfold length_of; lia |]. apply in_map_iff in Hx as (kt & <- & J). apply in_flat_map in J as (k & Ik & J).
  apply (si_signers _ _ _ _ _ _ S) in Ik as (q & items & _ & [R _] & K). apply in_flat_map in K as ([r u] & K & Ks). destruct (response_held _ _ _ R (HB q)) as [FH _]. rewrite Forall_forall in FH. apply FH in K as [K _]. cbn [fst] in K.
  assert (V : valid_name k) by (destruct r; try (destruct Ks; fail); destruct Ks as [<- | []]; unfold Held in K; cbn [typed_rr] in K; unfold valid_name; tauto).
  apply in_map_iff in J as (t' & <- & It). assert (T : t' < 65536) by (unfold key_types in It; destruct (list_eq_dec _ _ _); cbn in It; destruct It as [<- | It]; try lia; destruct It as [<- | []]; lia).
  destruct (build_query_spec k t' V T) as (x & B & _ & L). unfold qbytes. cbn [fst snd]. rewrite B. unfold length_of. lia.
Qed.
Lemma over_tcp dbg answer n ty b0 q0 order b p ttl : (forall q, is_bytes (answer q)) -> name_try_from n = Some n -> ty < 65536 -> builder_new n ty = Ok (b0, q0) ->
  Arrive dbg answer b0 [qb_deref q0] order b [] -> finish_proof b = Ok (p, ttl) -> Forall (fun q => length_of (answer q) <= 65535) order ->
  exists sent, Permutation sent (map frame order) /\
    forall segs rest, concat segs = flat_map frame (map answer order) ++ rest -> build_proof dbg 10 n ty segs = (Ok (p, ttl), sent).
Proof.
  intros HB V T E A F FL. destruct (query_built n ty V T) as (q & BQ & _ & QL). rewrite BQ in E. injection E as <- <-. pose proof F as F'. apply finish_inv in F' as (P0 & M & _).
  pose proof (sinv_run dbg answer _ HB _ _ _ _ _ A _ (sinv_init dbg answer (qb_deref q))) as S1. cbn [app] in S1. pose proof (sinv_length _ _ _ _ _ _ S1 HB M QL) as LQ. rewrite app_nil_r in LQ.
  assert (L10 : (length order <= 10)%nat). { pose proof (si_pending _ _ _ _ _ _ S1) as PD. unfold len in PD. lia. }
  destruct (arrive_drive _ _ _ _ _ _ HB A P0 M FL) as (hs & PH & D). exists (send_query (qb_deref q) :: map send_query hs). split.
  - change (send_query (qb_deref q) :: map send_query hs) with (map send_query ([qb_deref q] ++ hs)). rewrite <- PH. erewrite map_ext_in; [reflexivity |]. intros x Hx. rewrite Forall_forall in LQ. apply send_frame. exact (LQ x Hx).
  - intros segs rest C. unfold build_proof. rewrite BQ. rewrite (D 10%nat segs rest [send_query (qb_deref q)] L10 C), F. reflexivity.
Qed.

(** ** Read back and verified *)
Lemma brings_held dbg answer order items : (forall q, is_bytes (answer q)) -> Brings dbg answer order items -> Forall (fun rt => Held (fst rt) /\ is_u32 (snd rt)) items.
Proof. intros HB (l & F & ->). induction F as [| q i order l R F IH]; [constructor |]. cbn [concat]. apply Forall_app. split; [apply (response_held _ _ _ R (HB q)) | exact IH]. Qed.
Lemma brings_parse dbg answer order items dbg' : (forall q, is_bytes (answer q)) -> Brings dbg answer order items -> Forall wf_rr (map fst items) -> parse_rr_stream dbg' (write_all items) = Ok (map fst items).
Proof.
  intros HB B W. pose proof (brings_held _ _ _ _ HB B) as FH. apply write_parse_stream. apply Forall_forall. intros [r t] I. rewrite Forall_forall in W, FH. split; [apply W, in_map_iff; exists (r, t); auto | apply FH in I; apply I].
Qed.
Lemma flat_concat {A B} (f : A -> list B) l : flat_map f (concat l) = flat_map (flat_map f) l.
Proof. induction l as [| x l IH]; [reflexivity |]. cbn [concat flat_map]. rewrite flat_map_app, IH. reflexivity. Qed.
Lemma only_one {A} (q0 : list N) (g : list A) x y : Permutation x y -> flat_map (fun q => if list_eq_dec N.eq_dec q q0 then g else []) x = flat_map (fun q => if list_eq_dec N.eq_dec q q0 then g else []) y.
Proof.
  induction 1 as [| a x y P IH | a b x | x y z P IH P' IH']; cbn [flat_map]; [reflexivity | rewrite IH; reflexivity | | congruence].
  destruct (list_eq_dec N.eq_dec a q0), (list_eq_dec N.eq_dec b q0); reflexivity.
Qed.
Lemma together {A} (R : list N -> list (RR * N) -> Prop) (f : list (RR * N) -> list A) q0 order l : (forall q i j, R q i -> R q j -> i = j) ->
  (forall q items, In q order -> q <> q0 -> R q items -> f items = []) -> Forall2 R order l ->
  exists g, forall order' l', incl order' order -> Forall2 R order' l' -> flat_map f l' = flat_map (fun q => if list_eq_dec N.eq_dec q q0 then g else []) order'.
Proof.
  intros U H F. assert (G : exists g, forall items, In q0 order -> R q0 items -> f items = g).
  { destruct (in_dec (list_eq_dec N.eq_dec) q0 order) as [I | NI]; [| exists []; intros; contradiction].
    assert (X : exists i, R q0 i) by (clear - F I; induction F as [| x i xs l G F IH]; [destruct I |]; destruct I as [<- | I]; eauto). destruct X as (i & Ri). exists (f i). intros items _ Rj. rewrite (U _ _ _ Ri Rj). reflexivity. }
  destruct G as (g & G). exists g. intros order' l' I F'. induction F' as [| q i order' l' Rq F' IH]; [reflexivity |]. cbn [flat_map]. rewrite IH by (intros x Hx; apply I; right; exact Hx). f_equal.
  assert (Iq : In q order) by (apply I; left; reflexivity). destruct (list_eq_dec N.eq_dec q q0) as [-> | N0]; [apply G; assumption | apply (H q); assumption].
Qed.
Lemma moved {A} dbg answer (f : RR -> list A) q0 order order' items items' : Permutation order order' -> Brings dbg answer order items -> Brings dbg answer order' items' ->
  (forall q i, In q order -> q <> q0 -> Response (negb dbg) (answer q) i -> flat_map f (map fst i) = []) ->
  flat_map f (map fst items) = flat_map f (map fst items').
Proof.
  intros P (l & F & ->) (l' & F' & ->) H. destruct (together (fun q i => Response (negb dbg) (answer q) i) (fun i => flat_map f (map fst i)) q0 order l) as (g & G); [intros q i j; apply response_unique | exact H | exact F |].
  assert (E : forall m, flat_map f (map fst (concat m)) = flat_map (fun i : list (RR * N) => flat_map f (map fst i)) m).
  { intros m. rewrite concat_map, flat_concat, !flat_map_concat_map, map_map. reflexivity. }
  rewrite !E, (G order l (incl_refl _) F), (G order' l'); [apply only_one; exact P | intros x Hx; apply (Permutation_in _ (Permutation_sym P) Hx) | exact F'].
Qed.
Lemma arrived_verdict dbg answer order order' items items' e dbg1 : (forall q, is_bytes (answer q)) -> Permutation order order' -> Brings dbg answer order items -> Brings dbg answer order' items' ->
  Permutation items items' -> KeysTogether dbg answer order -> Forall wf_rr (map fst items) -> SortsNeeds e ->
  (forall s, In (RR_RRSig s) (map fst items) -> ~ EmptyMaxLabels (map fst items) s) -> TwoParams e (map fst items) -> OneZone e (map fst items) ->
  exists rs rs', parse_rr_stream dbg1 (write_all items) = Ok rs /\ parse_rr_stream dbg1 (write_all items') = Ok rs' /\
    forall fuel v, verify_rr_stream e false fuel rs = Ok v -> exists fuel' v', verify_rr_stream e false fuel' rs' = Ok v' /\ SameResult v v'.
Proof.
  intros HB P B B' PI K W SN NE TP OZ. exists (map fst items), (map fst items'). split; [apply (brings_parse _ _ _ _ _ HB B W) |]. assert (PM : Permutation (map fst items) (map fst items')) by (apply Permutation_map; exact PI).
  split; [apply (brings_parse _ _ _ _ _ HB B'); rewrite <- PM; exact W |]. apply accept_same_order; try assumption.
  - apply Forall_map. eapply Forall_impl; [| exact (brings_held _ _ _ _ HB B)]. intros a [H _]. exact H.
  - intros z. destruct (K z) as (q0 & H). split; eapply moved; eauto; intros q i I N0 R; apply (H q i I N0 R).
Qed.
Lemma any_order_verdict dbg answer n ty b0 q0 order b order' b' p ttl e dbg1 : (forall q, is_bytes (answer q)) -> builder_new n ty = Ok (b0, q0) ->
  Arrive dbg answer b0 [qb_deref q0] order b [] -> finish_proof b = Ok (p, ttl) -> Arrive dbg answer b0 [qb_deref q0] order' b' [] ->
  KeysTogether dbg answer order -> (forall items, Brings dbg answer order items -> Forall wf_rr (map fst items) /\
    (forall s, In (RR_RRSig s) (map fst items) -> ~ EmptyMaxLabels (map fst items) s) /\ TwoParams e (map fst items) /\ OneZone e (map fst items)) -> SortsNeeds e ->
  exists p' rs rs', finish_proof b' = Ok (p', ttl) /\ parse_rr_stream dbg1 p = Ok rs /\ parse_rr_stream dbg1 p' = Ok rs' /\
    forall fuel v, verify_rr_stream e false fuel rs = Ok v -> exists fuel' v', verify_rr_stream e false fuel' rs' = Ok v' /\ SameResult v v'.
Proof.
  intros HB E A F A' K H SN. destruct (any_order _ _ _ _ _ _ _ _ _ _ _ _ HB E A F A') as (P & p' & i & i' & F' & B & B' & PI & -> & ->). destruct (H i B) as (W & NE & TP & OZ).
  destruct (arrived_verdict dbg answer order order' i i' e dbg1 HB P B B' PI K W SN NE TP OZ) as (rs & rs' & R & R' & V). exists (write_all i'), rs, rs'. auto.
Qed.
