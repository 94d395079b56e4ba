(** What one connection can cost. *)
From Verif Require Import Base BaseP NameM NameSpec NameP WireM WireSpec RRM SerM RecSpec RecP RecP2 ValSpec ValM HeldP ValP JsonM TextSpec TextP QueryM QuerySpec QBufP QueryP QueryP2 QueryP3 QueryP4 HttpM HttpSpec HttpP SizeP ServerM ServerSpec ServerP ServerP2 CacheP CostSpec.
From Coq Require Import Lia Permutation PeanoNat String.
Import List.ListNotations.
Local Open Scope N_scope.

(** ** The queries *)
Lemma made_grows dbg b m r b' : is_bytes m -> process_response dbg b m = (r, b') -> r <> Panic -> r <> Loop -> pb_made b <= pb_made b'.
Proof.
  intros B P NP NL. destruct r as [qs | u | |]; [| | contradiction | contradiction].
  - apply process_ok in P as (i & new & qs' & _ & _ & _ & -> & _); [| exact B]. cbn [pb_made]. lia.
  - apply process_err in P as (x & ->). cbn [pb_made]. lia.
Qed.
Lemma signer_valid lax tr k : Signer lax tr k -> Forall (fun c => is_bytes (fst c)) tr -> valid_name k.
Proof.
  intros (m & items & [r u] & A & R & K & Ks) B. assert (Bm : is_bytes m).
  { unfold accepted in A. apply in_map_iff in A as (c & <- & A). apply filter_In in A as [A _]. rewrite Forall_forall in B. exact (B c A). }
  destruct (response_held _ _ _ R Bm) as [FH _]. rewrite Forall_forall in FH. apply FH in K as [K _]. cbn [fst] in K.
  destruct r; try (destruct Ks; fail); destruct Ks as [<- | []]; unfold Held in K; cbn [typed_rr] in K; unfold valid_name; tauto.
Qed.
(** The queries handed out are those for distinct names, and at most nine. *)
Lemma handed_keys dbg tr b : Calls dbg builder_init tr b -> Forall (fun c => is_bytes (fst c)) tr ->
  exists ks, NoDup ks /\ Forall valid_name ks /\ cost ks <= 9 /\ Forall2 query_of (flat_map key_queries ks) (handed tr) /\ (pb_made b <= 10 -> ks = pb_requested b).
Proof.
  remember builder_init as b0 eqn:E0. intros C. induction C as [b | b tr b1 m r b2 C IH P NP NL]; intros B.
  - exists []. split; [constructor |]. split; [constructor |]. split; [cbn; lia |]. split; [constructor |]. intros _. subst b. reflexivity.
  - pose proof B as B'. apply Forall_app in B as [B Bm]. inversion Bm as [| ? ? Bm' _]; subst. cbn [fst] in Bm'. destruct (IH eq_refl B) as (ks & ND & V & L & F & K).
    assert (C' : Calls dbg builder_init (tr ++ [(m, r)]) b2) by (econstructor; eassumption). pose proof (calls_inv _ _ _ C' B') as I.
    destruct (N.le_gt_cases (pb_made b2) 10) as [M | M].
    + exists (pb_requested b2). split; [exact (inv_nodup _ _ _ I) |]. split; [apply Forall_forall; intros k Hk; apply (inv_signers _ _ _ I) in Hk; exact (signer_valid _ _ _ Hk B') |]. pose proof (inv_made _ _ _ I) as IM. split; [lia |]. split; [exact (inv_queries _ _ _ I M) | auto].
    + exists ks. split; [exact ND |]. split; [exact V |]. split; [exact L |]. split; [| lia]. rewrite handed_snoc. destruct r as [qs | u | |]; [| rewrite app_nil_r; exact F | contradiction | contradiction].
      apply process_ok in P as (i & new & qs' & _ & _ & _ & E & _ & _ & _ & Eq); [| exact Bm']. replace (pb_made b2 <=? 10) with false in Eq by (symmetry; apply N.leb_gt; exact M). subst qs. rewrite app_nil_r. exact F.
Qed.
Lemma frame_length m : (List.length (frame m) = 2 + List.length m)%nat.
Proof. unfold frame, u16. reflexivity. Qed.
Lemma framed m : len (frame m) = 2 + len m.
Proof. unfold len. rewrite frame_length. lia. Qed.
Lemma query_short n ty q : query_of (n, ty) q -> valid_name n -> len (qb_deref q) <= 283.
Proof.
  intros [_ (ls & L & E)] V. cbn [fst snd] in *. pose proof (wire_name_length n ls V L) as W. rewrite E. unfold len. rewrite !app_length. cbn [List.length u16]. lia.
Qed.
Lemma query_root ty q : query_of ([46], ty) q -> len (qb_deref q) = 28.
Proof.
  intros [_ (ls & L & E)]. cbn [fst snd] in *. assert (X : LabelsOf [46] []) by (split; [reflexivity |]; split; [constructor | discriminate]).
  rewrite (labelsof_inj _ _ _ L X) in E. rewrite E. reflexivity.
Qed.
Definition sent_of (q0 : qbuf) (tr : list (list N * outcome unit (list qbuf))) : list N := flat_map (fun q => frame (qb_deref q)) (q0 :: handed tr).
Definition sizes (qs : list qbuf) : N := len (flat_map (fun q => frame (qb_deref q)) qs).
Lemma sizes_app a b : sizes (a ++ b) = sizes a + sizes b.
Proof. unfold sizes. rewrite flat_map_app, len_app. reflexivity. Qed.
Lemma sizes_one q : sizes [q] = 2 + len (qb_deref q).
Proof. unfold sizes. cbn [flat_map]. rewrite app_nil_r, framed. reflexivity. Qed.
(** 285 for each query which is not about the root. *)
Lemma sizes_keys ks : Forall valid_name ks -> ~ In [46] ks -> forall qs, Forall2 query_of (flat_map key_queries ks) qs -> sizes qs <= 285 * cost ks /\ N.even (cost ks) = true.
Proof.
  induction ks as [| k ks IH]; intros V NR qs F; [inversion F; subst; cbn; split; [lia | reflexivity] |]. inversion V as [| ? ? Vk Vs]; subst. cbn [flat_map] in F.
  assert (NE : bytes_eqb k root_name = false) by (apply bytes_eqb_neq; intros E; apply NR; left; exact E).
  unfold key_queries in F at 1. rewrite key_types_spec, NE in F. cbn [map app] in F. inversion F as [| ? q1 ? l1 Q1 F1]; subst. inversion F1 as [| ? q2 ? l2 Q2 F2]; subst.
  destruct (IH Vs ltac:(intros I; apply NR; right; exact I) _ F2) as [S E]. change (k :: ks) with ([k] ++ ks). rewrite cost_app, cost_one, NE. apply query_short in Q1; [| exact Vk]. apply query_short in Q2; [| exact Vk].
  change (q1 :: q2 :: l2) with ([q1] ++ [q2] ++ l2). rewrite !sizes_app, !sizes_one. split; [lia |]. rewrite N.even_add, E. reflexivity.
Qed.
Lemma sizes_all ks qs : NoDup ks -> Forall valid_name ks -> cost ks <= 9 -> Forall2 query_of (flat_map key_queries ks) qs -> sizes qs <= 2310.
Proof.
  intros ND V L F. destruct (in_dec (list_eq_dec N.eq_dec) [46] ks) as [I | NI].
  - apply in_split in I as (a & b & ->). pose proof (NoDup_remove_2 _ _ _ ND) as NR. apply Forall_app in V as [Va Vb]. inversion Vb as [| ? ? _ Vb']; subst.
    rewrite flat_map_app in F. apply Forall2_app_inv_l in F as (q1 & q2 & F1 & F2 & ->). cbn [flat_map] in F2. change (key_queries [46]) with [([46], 48)] in F2. cbn [app] in F2. inversion F2 as [| ? q ? l2 Q F3]; subst.
    destruct (sizes_keys (a ++ b)) with (qs := q1 ++ l2) as [S E]; [apply Forall_app; auto | exact NR | rewrite flat_map_app; apply Forall2_app; assumption |].
    change ([46] :: b) with ([[46]] ++ b) in L. rewrite !cost_app, cost_one in L. change (bytes_eqb [46] root_name) with true in L. cbn iota in L. rewrite cost_app in S, E. change (q :: l2) with ([q] ++ l2). rewrite !sizes_app, sizes_one, (query_root _ _ Q). rewrite sizes_app in S. lia.
  - destruct (sizes_keys ks V NI _ F) as [S E]. assert (cost ks <> 9) by (intros X; rewrite X in E; discriminate E). lia.
Qed.
Lemma sent_bound dbg n ty q0 tr b : name_try_from n = Some n -> ty < 65536 -> builder_new n ty = Ok (builder_init, q0) -> Calls dbg builder_init tr b -> Forall (fun c => is_bytes (fst c)) tr ->
  sizes (q0 :: handed tr) <= SENT.
Proof.
  intros V T E C B. destruct (query_built n ty V T) as (q & BQ & _ & QL). rewrite BQ in E. injection E as <-. destruct (handed_keys _ _ _ C B) as (ks & ND & VK & L & F & _).
  change (q :: handed tr) with ([q] ++ handed tr). rewrite sizes_app, sizes_one. pose proof (sizes_all ks _ ND VK L F). unfold len, SENT. lia.
Qed.
Lemma sent_frames l : Forall (fun q => len (qb_deref q) <= 65535) l -> map (fun q => send_query (qb_deref q)) l = map (fun q => frame (qb_deref q)) l.
Proof. intros F. apply map_ext_in. intros q Hq. rewrite Forall_forall in F. apply send_frame. exact (F q Hq). Qed.
Lemma sizes_in l q : In q l -> len (qb_deref q) <= sizes l.
Proof. intros I. apply in_split in I as (a & b & ->). change (q :: b) with ([q] ++ b). rewrite !sizes_app, sizes_one. lia. Qed.
(** All that [build_proof] sends, whatever comes of it. *)
Lemma build_sends dbg fuel n ty segs r sent : name_try_from n = Some n -> ty < 65536 -> is_bytes (List.concat segs) -> build_proof dbg fuel n ty segs = (r, sent) ->
  len (List.concat sent) <= SENT /\ (List.length sent <= 10)%nat.
Proof.
  intros V T B H. unfold build_proof in H. destruct (query_built n ty V T) as (q & BQ & _ & QL). rewrite BQ in H.
  destruct (drive_sound _ _ _ _ _ _ _ B H [] _ (Driven_nil _ _)) as (tr & b' & rest & D & E & F & _ & _ & S). cbn [app] in D. apply driven_calls in D.
  pose proof (sent_bound _ _ _ _ _ _ V T BQ D F) as L. change (sent = map (fun q => send_query (qb_deref q)) (q :: handed tr)) in S. rewrite sent_frames in S.
  - subst sent. split; [| rewrite map_length; cbn [List.length]; pose proof (inv_handed _ _ _ (calls_inv _ _ _ D F)); lia]. rewrite <- flat_map_concat_map. exact L.
  - apply Forall_forall. intros x Hx. apply sizes_in in Hx. unfold SENT in L. lia.
Qed.
