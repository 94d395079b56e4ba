(** What the page shows of a proof which a client of the server accepts. *)
From Verif Require Import Base BaseP NameM NameSpec NameP WireM RRM SerM RecSpec RecP2 SignedP ValSpec ValM ValP3 ValP4 QueryM QuerySpec QueryP QueryP2 QueryP3 QueryP4 AcceptSpec AcceptP5 OrderSpec TextSpec JsonM JsonSpec JsonP JsonP5 JsonP7 SeenSpec SeenP SeenP2 WasmM WasmSpec DohM DohSpec DohP DohP3 ArriveSpec ArriveP ArriveP2 LiveW2 BothP.
From Coq Require Import String Lia List PeanoNat Permutation.
Import ListNotations.
Local Open Scope N_scope.

Lemma brings_unique dbg answer order items items' : Brings dbg answer order items -> Brings dbg answer order items' -> items = items'.
Proof.
  intros (l & F & ->) (l' & F' & ->). f_equal. revert l' F'. induction F as [| q i o l R F IH]; intros l' F'; inversion F'; subst; [reflexivity |].
  f_equal; [eapply response_unique; eassumption |]. apply IH. assumption.
Qed.
Lemma concat_permutation {A} (l l' : list (list A)) : Permutation l l' -> Permutation (concat l) (concat l').
Proof.
  induction 1 as [| x l l' P IH | x y l | l l' l'' P IH P' IH']; cbn [concat]; [constructor | apply Permutation_app_head; exact IH | | eapply Permutation_trans; eassumption].
  rewrite !app_assoc. apply Permutation_app_tail, Permutation_app_comm.
Qed.
Lemma brings_permuted dbg answer order order' items : Permutation order order' -> Brings dbg answer order items -> exists items', Brings dbg answer order' items' /\ Permutation items items'.
Proof.
  intros P (l & F & ->). destruct (Permutation_Forall2 P F) as (l' & PL & F'). exists (concat l'). split; [exists l'; auto | apply concat_permutation; exact PL].
Qed.
Lemma inserts_permuted {A} (x : A) l q : In q (inserts x l) -> Permutation (x :: l) q.
Proof.
  revert q. induction l as [| y l IH]; intros q I; cbn [inserts] in I; destruct I as [<- | I]; [apply Permutation_refl | destruct I | apply Permutation_refl |].
  apply in_map_iff in I as (q' & <- & I). eapply Permutation_trans; [apply perm_swap |]. constructor. apply IH. exact I.
Qed.
Lemma perms_permuted {A} (l q : list A) : In q (perms l) -> Permutation l q.
Proof.
  revert q. induction l as [| x l IH]; intros q I; cbn [perms] in I; [destruct I as [<- | []]; constructor |].
  apply in_flat_map in I as (q' & I1 & I2). eapply Permutation_trans; [constructor; apply IH; exact I1 | apply inserts_permuted; exact I2].
Qed.
Section Shown.
  Variables (e : env) (answer : list N -> list N) (order : list (list N)) (items : list (RR * N)) (fuel : nat) (v : verified).
  Hypothesis HB : forall q, is_bytes (answer q).
  Hypothesis HI : Brings false answer order items.
  Hypothesis HK : KeysTogether false answer order.
  Hypothesis HW : Forall wf_rr (map fst items).
  Hypothesis HS : SortsNeeds e.
  Hypothesis HM : forall s, In (RR_RRSig s) (map fst items) -> ~ EmptyMaxLabels (map fst items) s.
  Hypothesis HT : TwoParams e (map fst items).
  Hypothesis HO : OneZone e (map fst items).
  Hypothesis HV : verify_rr_stream e false fuel (map fst items) = Ok v.

  (** One fuel for all the orders in a list: there are finitely many of them. *)
  Lemma one_fuel L : (forall o, In o L -> Permutation order o) ->
    exists fuel0, forall o items' f, In o L -> Brings false answer o items' -> (fuel0 <= f)%nat -> exists v', verify_rr_stream e false f (map fst items') = Ok v' /\ SameResult v v'.
  Proof.
    induction L as [| o L IH]; intros HP; [exists 0%nat; intros o items' f [] |].
    destruct IH as (f1 & H1); [intros o' I; apply HP; right; exact I |]. pose proof (HP o (or_introl eq_refl)) as P.
    destruct (brings_permuted _ _ _ _ _ P HI) as (io & BO & PI).
    destruct (arrived_verdict false answer order o items io e false HB P HI BO PI HK HW HS HM HT HO) as (rs & rs' & E1 & E2 & V).
    rewrite (brings_parse _ _ _ _ _ HB HI HW) in E1. injection E1 as <-.
    rewrite (brings_parse _ _ _ _ _ HB BO) in E2 by (rewrite <- (Permutation_map fst PI); exact HW). injection E2 as <-.
    destruct (V fuel v HV) as (f2 & v' & V2 & S). exists (Nat.max f1 f2). intros o' items' f [<- | I] B G.
    - rewrite (brings_unique _ _ _ _ _ B BO). exists v'. split; [| exact S]. rewrite (verify_mono e false _ f2 f); [exact V2 | rewrite V2; discriminate | lia].
    - apply (H1 o' items'); [exact I | exact B | lia].
  Qed.
  Lemma all_orders : exists fuel0, forall o items' f, Permutation order o -> Brings false answer o items' -> (fuel0 <= f)%nat ->
    exists v', verify_rr_stream e false f (map fst items') = Ok v' /\ SameResult v v'.
  Proof.
    destruct (one_fuel (perms order)) as (f0 & H); [intros o; apply perms_permuted |]. exists f0. intros o items' f P. apply H. apply in_perms, Permutation_sym, P.
  Qed.
End Shown.
Lemma same_no_backslash v v' : SameResult v v' -> Forall no_backslash (vr_rrs v) -> Forall no_backslash (vr_rrs v').
Proof. intros [P _] H. rewrite <- P. exact H. Qed.
Lemma shown e reparse trap fetch endpoint answer domain typ ty n b0 q0 : (forall q, is_bytes (answer q) /\ length_of (answer q) < 65535) ->
  (forall i q u, GetUrl endpoint q u -> fetch i u = Body (answer q)) -> (forall i u m, fetch i u = Body m -> is_bytes m) ->
  TypeName typ ty -> name_try_from (completed domain) = Some n -> builder_new n ty = Ok (b0, q0) ->
  forall order b p ttl rs fuel v, Arrive false answer b0 [qb_deref q0] order b [] -> finish_proof b = Ok (p, ttl) ->
  KeysTogether false answer order -> (forall items, Brings false answer order items -> Forall wf_rr (map fst items) /\
    (forall s, In (RR_RRSig s) (map fst items) -> ~ EmptyMaxLabels (map fst items) s) /\ TwoParams e (map fst items) /\ OneZone e (map fst items)) -> SortsNeeds e ->
  parse_rr_stream false p = Ok rs -> verify_rr_stream e false fuel rs = Ok v -> Forall no_backslash (vr_rrs v) ->
  exists fuel0, forall k fuel', (11 <= k)%nat -> (fuel0 <= fuel')%nat -> exists v' text j urls, SameResult v v' /\ Json text j /\ DescribesResult v' j /\
    lookup_doh e false fuel' reparse trap fetch endpoint k domain (TyText typ) = (match reparse text with Some s => JText s | None => JRejected end, urls).
Proof.
  intros HA HF HM HT HN HE order b p ttl rs fuel v A F K H SN PR V NB. pose proof (fun q => proj1 (HA q)) as HB.
  assert (X : exists items, Brings false answer order items /\ p = write_all items).
  { destruct (any_order false answer n ty b0 q0 order b order b p ttl HB HE A F A) as (_ & p' & i & i' & _ & B & _ & _ & E & _). exists i. auto. }
  destruct X as (items & B & ->). destruct (H items B) as (W & NE & TP & OZ). rewrite (brings_parse _ _ _ _ _ HB B W) in PR. injection PR as <-.
  destruct (all_orders e answer order items fuel v HB B K W SN NE TP OZ V) as (f0 & AO). exists f0. intros k fuel' G1 G2.
  destruct (https_forth e false reparse trap fetch endpoint answer domain typ ty n b0 q0 HA HF HM HT HN HE order b _ ttl k fuel' G1 A F)
    as (r & urls & order' & p' & i & i' & L & PO & _ & B1 & B2 & PI & _ & -> & C).
  rewrite (brings_unique _ _ _ _ _ B1 B) in PI. destruct (AO order' i' fuel' PO B2 G2) as (v' & V' & S).
  assert (W' : Forall wf_rr (map fst i')) by (rewrite <- (Permutation_map fst PI); exact W).
  assert (E : verify_byte_stream e false fuel' (write_all i') = Ok (verified_json v')) by (unfold verify_byte_stream; rewrite (brings_parse _ _ _ _ _ HB B2 W'), V'; reflexivity).
  assert (HH : Forall Held (map fst i')) by (eapply Forall_impl; [exact wf_held | exact W']).
  destruct (verified_not_rrsig _ _ _ _ _ HH V') as [H1 H2]. destruct (result_shown v' H1 H2 (same_no_backslash _ _ S NB)) as (j & J & D).
  exists v', (verified_json v'), j, urls. split; [exact S |]. split; [exact J |]. split; [exact D |]. rewrite L. f_equal.
  destruct C as [t s E1 E2 | t E1 E2 | E1 | E1]; rewrite E in E1; try discriminate E1.
  - apply (f_equal (fun o => match o with Ok x => x | _ => [] end)) in E1. cbn beta iota in E1. rewrite E1, E2. reflexivity.
  - apply (f_equal (fun o => match o with Ok x => x | _ => [] end)) in E1. cbn beta iota in E1. rewrite E1, E2. reflexivity.
Qed.

(** ** Conversely *)
Lemma conditions_moved e inp inp' : Permutation inp inp' -> (forall z, keys_at inp z = keys_at inp' z /\ sigs_over inp z 48 = sigs_over inp' z 48) ->
  (forall s, In (RR_RRSig s) inp -> ~ EmptyMaxLabels inp s) -> TwoParams e inp -> OneZone e inp ->
  (forall s, In (RR_RRSig s) inp' -> ~ EmptyMaxLabels inp' s) /\ TwoParams e inp' /\ OneZone e inp'.
Proof.
  intros HP HE Hm Ht Ho. assert (HP' := Permutation_sym HP).
  assert (K2 : same_keys inp' inp) by (intros z P s k; rewrite (proj1 (HE z)); auto). assert (S2 : same_keysigs inp' inp) by (intros z U V s; rewrite (proj2 (HE z)); auto). split; [| split].
  - intros s Hs (B1 & B2). apply (in_perm inp inp' HP) in Hs. apply (Hm s Hs). unfold EmptyMaxLabels. split; [| exact B2].
    pose proof (rrset_perm inp inp' HP (rs_name s) (rs_ty s)) as G. rewrite B1 in G. apply Permutation_sym, Permutation_nil in G. exact G.
  - intros z nc ty Hn. apply (needs_perm e inp' inp HP' K2) in Hn. destruct (Ht z nc ty Hn) as (p & q & Hpq). exists p, q. intros n pre Hp. apply Hpq. apply (proven_perm e inp' inp HP' K2). exact Hp.
  - intros z z' nc ty ty' H1 H2. apply (needs_perm e inp' inp HP' K2) in H1, H2. exact (Ho _ _ _ _ _ H1 H2).
Qed.
Lemma together_permuted dbg answer order order' : Permutation order order' -> KeysTogether dbg answer order -> KeysTogether dbg answer order'.
Proof. intros P K z. destruct (K z) as (q0 & H). exists q0. intros q items I. apply H. apply (Permutation_in _ (Permutation_sym P) I). Qed.
Lemma arrived_back answer order order' items items' e fuel v : (forall q, is_bytes (answer q)) -> Permutation order order' -> Brings false answer order items -> Brings false answer order' items' ->
  Permutation items items' -> KeysTogether false answer order -> Forall wf_rr (map fst items) -> SortsNeeds e ->
  (forall s, In (RR_RRSig s) (map fst items) -> ~ EmptyMaxLabels (map fst items) s) -> TwoParams e (map fst items) -> OneZone e (map fst items) ->
  verify_rr_stream e false fuel (map fst items') = Ok v -> exists fuel' v', verify_rr_stream e false fuel' (map fst items) = Ok v' /\ SameResult v v'.
Proof.
  intros HB P B B' PI K W SN NE TP OZ V. pose proof (Permutation_map fst PI) as PM. assert (W' : Forall wf_rr (map fst items')) by (rewrite <- PM; exact W).
  assert (EQ : forall z, keys_at (map fst items) z = keys_at (map fst items') z /\ sigs_over (map fst items) z 48 = sigs_over (map fst items') z 48).
  { intros z. destruct (K z) as (q0 & H). split; eapply moved; eauto; intros q i I N0 R; apply (H q i I N0 R). }
  destruct (conditions_moved e _ _ PM EQ NE TP OZ) as (NE' & TP' & OZ').
  destruct (arrived_verdict false answer order' order items' items e false HB (Permutation_sym P) B' B (Permutation_sym PI) (together_permuted _ _ _ _ P K) W' SN NE' TP' OZ') as (rs & rs' & E1 & E2 & X).
  rewrite (brings_parse _ _ _ _ _ HB B' W') in E1. injection E1 as <-. rewrite (brings_parse _ _ _ _ _ HB B W) in E2. injection E2 as <-. exact (X fuel v V).
Qed.
Lemma client e reparse trap fetch endpoint answer domain typ ty n b0 q0 : (forall q, is_bytes (answer q) /\ length_of (answer q) < 65535) ->
  (forall i q u, GetUrl endpoint q u -> fetch i u = Body (answer q)) -> (forall i u m, fetch i u = Body m -> is_bytes m) ->
  TypeName typ ty -> name_try_from (completed domain) = Some n -> builder_new n ty = Ok (b0, q0) -> Reformats reparse ->
  forall k fuel s urls j V, (11 <= k)%nat -> lookup_doh e false fuel reparse trap fetch endpoint k domain (TyText typ) = (JText s, urls) ->
  Json s j -> DescribesResult V j -> Forall Held (vr_rrs V) ->
  forall order b p ttl, Arrive false answer b0 [qb_deref q0] order b [] -> finish_proof b = Ok (p, ttl) ->
  KeysTogether false answer order -> (forall items, Brings false answer order items -> Forall wf_rr (map fst items) /\
    (forall s, In (RR_RRSig s) (map fst items) -> ~ EmptyMaxLabels (map fst items) s) /\ TwoParams e (map fst items) /\ OneZone e (map fst items)) -> SortsNeeds e ->
  exists rs fuel' v' v, parse_rr_stream false p = Ok rs /\ verify_rr_stream e false fuel' rs = Ok v' /\ SameResult v v' /\
    vr_valid_from V = vr_valid_from v /\ vr_expires V = vr_expires v /\ vr_max_cache_ttl V = vr_max_cache_ttl v /\ Forall2 Spelled (vr_rrs v) (vr_rrs V).
Proof.
  intros HA HF HM HT HN HE RF k fuel s urls j V K L J D HV order b p ttl A F KT H SN. pose proof (fun q => proj1 (HA q)) as HB.
  assert (EJ : forall t, s <> bs "{""error"":" ++ t) by (intros t ->; exact (error_not_result _ _ _ J D)).
  destruct (https_back e false reparse trap fetch endpoint answer domain typ ty n b0 q0 HA HF HM HT HN HE k fuel _ urls K L) as (order' & b' & p' & ttl' & A' & F' & _ & C).
  { intros X. apply (EJ (bs """Failed to build proof""}")). assert (ET : s = build_failed) by congruence. exact ET. }
  { intros exn X. apply (EJ (bs """DoH Query failed: " ++ exn ++ bs """}")). assert (ET : s = query_failed exn) by congruence. exact ET. }
  destruct (any_order false answer n ty b0 q0 order b order' b' p ttl HB HE A F A') as (P & p2 & i & i' & F2 & B & B' & PI & -> & E2).
  rewrite F' in F2. assert (EP : p' = write_all i') by congruence. clear F2 E2. rewrite EP in C. clear EP. destruct (H i B) as (W & NE & TP & OZ).
  assert (W' : Forall wf_rr (map fst i')) by (rewrite <- (Permutation_map fst PI); exact W).
  assert (HH : Forall Held (map fst i')) by (eapply Forall_impl; [exact wf_held | exact W']).
  inversion C as [text s' VB R | | |]; subst. destruct (RF _ _ _ R J) as (j0 & J0 & SM).
  destruct (byte_stream_reads _ _ _ _ _ _ (written_bytes _ (brings_held _ _ _ _ HB B')) VB J0) as [(rrs & v & PR & VV & RR) | (x & DE & _)].
  - rewrite (brings_parse _ _ _ _ _ HB B' W') in PR. injection PR as <-.
    destruct (arrived_back answer order order' i i' e fuel v HB P B B' PI KT W SN NE TP OZ VV) as (f' & v' & V' & S).
    exists (map fst i), f', v', v. split; [apply (brings_parse _ _ _ _ _ HB B W) |]. split; [exact V' |]. split; [exact S |].
    destruct (verified_not_rrsig _ _ _ _ _ HH VV) as [H1 _]. destruct (window_small _ _ _ _ HH VV) as (B1 & B2 & B3). exact (result_seen v V j0 j H1 HV B1 B2 B3 RR SM D).
  - exfalso. destruct D as (a & b1 & c & rs & -> & _). unfold DescribesError in DE. rewrite DE in SM. inversion SM as [| | | | | ? ? KK]; subst.
    assert (K' := KK ltac:(repeat (constructor; [cbn; intuition discriminate |]); constructor) ltac:(repeat (constructor; [intros [_ X]; cbn in X; inversion X as [| ? ? DD]; unfold is_digit in DD; lia |]); constructor)).
    inversion K' as [| ? ? ? ? _ K2]; subst. inversion K2.
Qed.
