(** Worlds for Prop_Lookup: a name which ends like the owner of a DNAME, and a DNAME to the root. *)
From Verif Require Import Base BaseP NameM NameSpec NameP WireM WireP RRM SerM ValM RecSpec RecP2 SignedP ValSpec ValP ValP2 ValP3 ValW OrderW HeldP ResolveSpec ResolveP ResolveW QueryM QuerySpec QueryP QueryW
  AcceptSpec AcceptP2 AcceptW SecW LiveSpec LiveP LiveP2 LiveP3 LiveW LiveW2 LookupSpec LookupP LookupP2 LookupW.
From Coq Require Import String Permutation Lia Arith.
Local Open Scope N_scope.

(** x.d.a. DNAME-> x.e.a. CNAME-> zd.a., which is not below d.a. *)
Definition k_like : list rset :=
  [k_set "d.a." 39 2 (w_dname "d.a." "e.a."); k_set "x.e.a." 5 3 (w_cname "x.e.a." "zd.a."); k_set "zd.a." 1 2 (w_a "zd.a.")].
(** x.d.a. DNAME-> x. *)
Definition k_root : list rset :=
  [k_set "d.a." 39 2 (w_dname "d.a." "."); {| an_name := bs "x."; an_ty := 1; an_recs := [w_a "x."]; an_sigs := [o_rrsig "x." 1 1 "." [w_a "x."]] |}].

Lemma like_wf : Forall wf_rr (world_records l_small k_like).
Proof. unfold l_small, k_like, k_set, l_root, l_zone. l_wf_all. Qed.
Lemma root_wf : Forall wf_rr (world_records l_small k_root).
Proof. unfold l_small, k_root, k_set, l_root, l_zone. l_wf_all. Qed.
Lemma zda_labels : LabelsOf (bs "zd.a.") [[122; 100]; [97]].
Proof. labels. Qed.
Lemma x_labels : LabelsOf (bs "x.") [[120]].
Proof. labels. Qed.
Lemma like_signed : WellSigned echo_env l_small k_like (FirstVouched echo_env).
Proof.
  apply world_signed; [exact like_wf|vm_compute; reflexivity|apply nodup_b; vm_compute; reflexivity| | | |].
  - unfold k_like, k_set. cbn [map an_name an_ty]. repeat constructor; cbn; intuition discriminate.
  - apply (first_vouched _ _ _ like_wf). vm_compute. reflexivity.
  - intros a [<-|[<-|[<-|[]]]]; (apply Forall_cons; [|apply Forall_nil]); (eapply full_labels; [vm_compute; discriminate| |]);
      [exact da_labels|reflexivity|exact xea_labels|reflexivity|exact zda_labels|reflexivity].
  - intros a s pre l suf [<-|[<-|[<-|[]]]] [<-|[]] _ L E; exfalso;
      [exact (not_wild _ _ _ _ _ _ da_labels L eq_refl E)|exact (not_wild _ _ _ _ _ _ xea_labels L eq_refl E)|exact (not_wild _ _ _ _ _ _ zda_labels L eq_refl E)].
Qed.
Lemma root_signed : WellSigned echo_env l_small k_root (FirstVouched echo_env).
Proof.
  apply world_signed; [exact root_wf|vm_compute; reflexivity|apply nodup_b; vm_compute; reflexivity| | | |].
  - unfold k_root, k_set. cbn [map an_name an_ty]. repeat constructor; cbn; intuition discriminate.
  - apply (first_vouched _ _ _ root_wf). vm_compute. reflexivity.
  - intros a [<-|[<-|[]]]; (apply Forall_cons; [|apply Forall_nil]); (eapply full_labels; [vm_compute; discriminate| |]);
      [exact da_labels|reflexivity|exact x_labels|reflexivity].
  - intros a s pre l suf [<-|[<-|[]]] [<-|[]] _ L E; exfalso;
      [exact (not_wild _ _ _ _ _ _ da_labels L eq_refl E)|exact (not_wild _ _ _ _ _ _ x_labels L eq_refl E)].
Qed.
Lemma like_just : ServesJust l_small k_like (bs "x.d.a.") 1 (l_data l_small k_like (bs "x.d.a.") 1).
Proof. split; [vm_compute; reflexivity|]. intros z [<-|[<-|[]]]; (split; [|intros R]); vm_compute; reflexivity. Qed.
Lemma root_just : ServesJust l_small k_root (bs "x.d.a.") 1 (l_data l_small k_root (bs "x.d.a.") 1).
Proof. split; [vm_compute; reflexivity|]. intros z [<-|[<-|[]]]; (split; [|intros R]); vm_compute; reflexivity. Qed.
Lemma like_answers : Answers (l_data l_small k_like (bs "x.d.a.") 1) false (bs "x.d.a.") 1 (l_resp l_small k_like (bs "x.d.a.") 1) /\
  (forall m t rt, Asked (l_data l_small k_like (bs "x.d.a.") 1) (bs "x.d.a.") 1 m t -> In rt (l_data l_small k_like (bs "x.d.a.") 1 m t) -> wf_rr (fst rt)).
Proof. answers_of like_signed like_wf. exact like_just. Qed.
Lemma root_answers : Answers (l_data l_small k_root (bs "x.d.a.") 1) false (bs "x.d.a.") 1 (l_resp l_small k_root (bs "x.d.a.") 1) /\
  (forall m t rt, Asked (l_data l_small k_root (bs "x.d.a.") 1) (bs "x.d.a.") 1 m t -> In rt (l_data l_small k_root (bs "x.d.a.") 1 m t) -> wf_rr (fst rt)).
Proof. answers_of root_signed root_wf. exact root_just. Qed.

(** The questions differ on the wire. *)
Lemma queries_differ q q' b : In q (questions (bs "x.d.a.") 1 (map zn_name l_small)) -> In q' (questions (bs "x.d.a.") 1 (map zn_name l_small)) ->
  Query (fst q) (snd q) b -> Query (fst q') (snd q') b -> q = q'.
Proof.
  set (Q := fun q : list N * N => match build_query (fst q) (snd q) with Ok x => qb_deref x | _ => [] end).
  assert (K : forall q, In q (questions (bs "x.d.a.") 1 (map zn_name l_small)) -> Query (fst q) (snd q) b -> b = Q q).
  { intros [m t] I H. cbn [fst snd] in H. assert (G : valid_name m /\ t < 65536).
    { assert (C : forallb (fun q => match name_try_from (fst q) with Some n => bytes_eqb n (fst q) | None => false end && (snd q <? 65536)) (questions (bs "x.d.a.") 1 (map zn_name l_small)) = true) by (vm_compute; reflexivity).
      rewrite forallb_forall in C. specialize (C _ I). cbn [fst snd] in C. apply andb_true_iff in C as [C1 C2]. apply N.ltb_lt in C2. split; [|exact C2].
      unfold valid_name. destruct (name_try_from m) as [x|]; [|discriminate C1]. apply bytes_eqb_eq in C1. congruence. }
    destruct (build_query_spec m t (proj1 G) (proj2 G)) as (x & E & S & _). unfold Q. cbn [fst snd]. rewrite E. exact (query_unique _ _ _ _ H S). }
  intros I I' H H'. apply (map_nodup_inj Q (questions (bs "x.d.a.") 1 (map zn_name l_small))); [|exact I|exact I'|rewrite <- (K _ I H); exact (K _ I' H')].
  apply nodup_b. vm_compute. reflexivity.
Qed.

(** The chains, by texts. *)
Lemma labels_root n o x : o <> [46] -> redirect_labels n o [46] x -> exists p, p <> [] /\ n = p ++ o /\ x = p.
Proof.
  intros No (pre & ls & ls' & NE & En & Eo' & Ed' & -> & F).
  assert (ls <> []) by (intros ->; apply No; exact Eo'). assert (ls' = []) as ->.
  { destruct ls' as [|l ls']; [reflexivity|]. exfalso. rewrite app_assoc in F. apply Forall_app in F as [_ F]. inversion F as [|? ? [NL _] _]; subst.
    destruct l as [|c [|? ?]]; [contradiction|discriminate Ed'|discriminate Ed']. }
  assert (D : forall l, l <> [] -> dotted l = dots l) by (intros [|] ?; [contradiction|reflexivity]).
  assert (NA : forall b, pre ++ b <> []). { intros b E. apply app_eq_nil in E. tauto. }
  exists (dots pre). rewrite En, Eo'. rewrite !D, !dots_app by auto. split; [|split; [reflexivity|apply app_nil_r]].
  destruct pre as [|x pre]; [contradiction|]. cbn [dots map List.concat]. intros E. apply app_eq_nil in E as [E _]. apply app_eq_nil in E as [_ E]. discriminate E.
Qed.
Lemma like_recs r : HasRec k_like r -> r = w_dname "d.a." "e.a." \/ r = w_cname "x.e.a." "zd.a." \/ r = w_a "zd.a.".
Proof. intros (a & [<-|[<-|[<-|[]]]] & [<-|[]]); auto. Qed.
Lemma like_step n t : Step k_like n t -> (n = bs "x.e.a." /\ t = bs "zd.a.") \/ (redirect_labels n (bs "d.a.") (bs "e.a.") t).
Proof. intros S. destruct S as [c H|n d t _ H R]; apply like_recs in H as [H|[H|H]]; try discriminate H; injection H as ->; [left; auto|right; exact R]. Qed.
(** zd.a. is not below d.a. *)
Lemma like_not_below t : ~ redirect_labels (bs "zd.a.") (bs "d.a.") (bs "e.a.") t.
Proof.
  intros (pre & ls & ls' & NE & En & Eo & Ed & -> & F). assert (L : forall l m, Forall (fun l => l <> [] /\ label_ok l) l -> Forall (fun l => l <> [] /\ label_ok l) m -> dotted l = dotted m -> l <> [] -> m <> [] -> l = m).
  { intros l m Fl Fm E Nl Nm. assert (D : forall l, l <> [] -> dotted l = dots l) by (intros [|] ?; [contradiction|reflexivity]). rewrite !D in E by assumption.
    apply dots_inj in E; [exact E| |]; (eapply Forall_impl; [|eassumption]); intros x [_ [_ C]] I; rewrite Forall_forall in C; destruct (C _ I) as (_ & _ & X); congruence. }
  assert (C2 : Forall (fun l => l <> [] /\ label_ok l) [[122; 100]; [97]] /\ Forall (fun l => l <> [] /\ label_ok l) [[100]; [97]]).
  { unfold label_ok, label_char. split; repeat match goal with |- Forall _ (_ :: _) => apply Forall_cons | |- Forall _ [] => apply Forall_nil | |- _ /\ _ => split end; first [discriminate | lia | cbn; lia]. }
  rewrite app_assoc in F. apply Forall_app in F as [F _]. pose proof F as F2. apply Forall_app in F2 as [_ F2].
  assert (ls = [[100]; [97]]) as ->. { apply L; [exact F2|apply C2|rewrite <- Eo; reflexivity| |discriminate]. intros ->. discriminate Eo. }
  assert (X : pre ++ [[100]; [97]] = [[122; 100]; [97]]). { apply L; [exact F|apply C2|rewrite <- En; reflexivity| |discriminate]. destruct pre; discriminate. }
  destruct pre as [|? [|? [|? ?]]]; [contradiction|discriminate X ..].
Qed.
Lemma like_steps k x : Steps k_like k (bs "x.d.a.") x -> x = bs "x.d.a." \/ x = bs "x.e.a." \/ x = bs "zd.a.".
Proof.
  intros S. remember (bs "x.d.a.") as n eqn:En. induction S as [n|k n x t S IH St]; [auto|]. specialize (IH En). subst n.
  apply like_step in St as [[-> ->]|R]; [auto|]. destruct IH as [ -> |[ -> | -> ]].
  - apply labels_text in R as (p & NE & E & ->); [|discriminate|discriminate]. apply pre_of in E as [Ep _]. rewrite Ep. right. left. reflexivity.
  - apply labels_text in R as (p & NE & E & ->); [|discriminate|discriminate]. apply pre_of in E as [_ Es]. vm_compute in Es. discriminate Es.
  - exfalso. exact (like_not_below _ R).
Qed.
Lemma like_chain : Chain k_like (bs "x.d.a.") (bs "zd.a.").
Proof.
  assert (S1 : Step k_like (bs "x.d.a.") (bs "x.e.a.")).
  { apply (Step_dname _ _ {| dn_name := bs "d.a."; dn_delegation := bs "e.a." |}).
    - intros c H. apply like_recs in H as [H|[H|H]]; try discriminate H. injection H as ->. discriminate.
    - eexists. split; [left; reflexivity|left; reflexivity].
    - exists [[120]], [[100]; [97]], [[101]; [97]]. split; [discriminate|]. split; [reflexivity|]. split; [reflexivity|]. split; [reflexivity|]. split; [reflexivity|].
      unfold label_ok, label_char. cbn [app]. repeat match goal with |- Forall _ (_ :: _) => apply Forall_cons | |- Forall _ [] => apply Forall_nil | |- _ /\ _ => split end; first [discriminate | lia | cbn; lia]. }
  assert (S2 : Step k_like (bs "x.e.a.") (bs "zd.a.")).
  { apply (Step_cname _ {| cn_name := bs "x.e.a."; cn_canonical := bs "zd.a." |}). eexists. split; [right; left; reflexivity|left; reflexivity]. }
  constructor.
  - exists 2%nat. econstructor; [econstructor; [constructor|exact S1]|exact S2].
  - intros t S. apply like_step in S as [[E _]|R]; [discriminate E|exact (like_not_below _ R)].
  - intros k x t t' S A B. apply like_step in A as [[-> ->]|R]; apply like_step in B as [[E' ->]|R'].
    + reflexivity.
    + apply labels_text in R' as (q & _ & E' & _); [|discriminate|discriminate]. apply pre_of in E' as [_ E']. vm_compute in E'. discriminate E'.
    + subst x. apply labels_text in R as (q & _ & E' & _); [|discriminate|discriminate]. apply pre_of in E' as [_ E']. vm_compute in E'. discriminate E'.
    + apply labels_text in R as (p & _ & E & ->); [|discriminate|discriminate]. apply labels_text in R' as (q & _ & E' & ->); [|discriminate|discriminate]. rewrite E in E'. apply app_inv_tail in E'. subst q. reflexivity.
  - intros k x t S A. apply (Steps_S _ _ _ _ _ S) in A. apply like_steps in A as [ -> |[ -> | -> ]]; match goal with |- acceptable ?y => assert (V : valid_name y) by (vm_compute; reflexivity); apply valid_name_spec in V; exact (proj1 V) end.
Qed.
Lemma root_recs r : HasRec k_root r -> r = w_dname "d.a." "." \/ r = w_a "x.".
Proof. intros (a & [<-|[<-|[]]] & [<-|[]]); auto. Qed.
Lemma root_step n t : Step k_root n t -> exists p, p <> [] /\ n = p ++ bs "d.a." /\ t = p.
Proof. intros S. destruct S as [c H|n d t _ H R]; apply root_recs in H as [H|H]; try discriminate H; injection H as ->. apply labels_root in R; [exact R|discriminate]. Qed.
Lemma root_steps k x : Steps k_root k (bs "x.d.a.") x -> x = bs "x.d.a." \/ x = bs "x.".
Proof.
  intros S. remember (bs "x.d.a.") as n eqn:En. induction S as [n|k n x t S IH St]; [auto|]. specialize (IH En). subst n.
  apply root_step in St as (p & NE & E & ->). apply pre_of in E as [Ep Es]. destruct IH as [ -> | -> ]; vm_compute in Es; [|discriminate Es]. rewrite Ep. right. reflexivity.
Qed.
Lemma root_chain : Chain k_root (bs "x.d.a.") (bs "x.").
Proof.
  constructor.
  - exists 1%nat. econstructor; [constructor|]. apply (Step_dname _ _ {| dn_name := bs "d.a."; dn_delegation := bs "." |}).
    + intros c H. apply root_recs in H as [H|H]; discriminate H.
    + eexists. split; [left; reflexivity|left; reflexivity].
    + exists [[120]], [[100]; [97]], []. split; [discriminate|]. split; [reflexivity|]. split; [reflexivity|]. split; [reflexivity|]. split; [reflexivity|].
      unfold label_ok, label_char. cbn [app]. repeat match goal with |- Forall _ (_ :: _) => apply Forall_cons | |- Forall _ [] => apply Forall_nil | |- _ /\ _ => split end; first [discriminate | lia | cbn; lia].
  - intros t S. apply root_step in S as (p & _ & E & _). apply pre_of in E as [_ E]. vm_compute in E. discriminate E.
  - intros k x t t' S A B. apply root_step in A as (p & _ & E & ->). apply root_step in B as (q & _ & E' & ->). rewrite E in E'. apply app_inv_tail in E'. exact E'.
  - intros k x t S A. apply (Steps_S _ _ _ _ _ S) in A. apply root_steps in A as [ -> | -> ]; match goal with |- acceptable ?y => assert (V : valid_name y) by (vm_compute; reflexivity); apply valid_name_spec in V; exact (proj1 V) end.
Qed.

(** What the library finds instead. *)
Lemma resolve_dname rrs k n l d x : (forall c, In (RR_CName c) rrs -> cn_name c <> n) -> (forall d', In (RR_DName d') rrs <-> d' = d) ->
  n = x ++ dn_name d -> resolve_name rrs (Datatypes.S k) n = Ok l ->
  match name_try_from (x ++ dn_delegation d) with Some n' => resolve_name rrs k n' = Ok l | None => l = [] end.
Proof.
  intros NC ND -> H. cbn [resolve_name] in H.
  assert (FC : find_cname rrs (x ++ dn_name d) = None).
  { unfold find_cname. destruct (flat_map _ rrs) as [|c t] eqn:E; [reflexivity|]. exfalso. assert (I : In c (c :: t)) by (left; reflexivity). rewrite <- E in I.
    apply in_flat_map in I as (r & Ir & I). destruct r; try (destruct I; fail). destruct (bytes_eqb (cn_name r) (x ++ dn_name d)) eqn:B; [|destruct I]. destruct I as [->|[]].
    apply bytes_eqb_eq in B. exact (NC _ Ir B). }
  assert (FD : find_dname rrs (x ++ dn_name d) = Some d).
  { unfold find_dname. destruct (flat_map _ rrs) as [|c t] eqn:E.
    - exfalso. assert (I : In d []); [|destruct I]. rewrite <- E. apply in_flat_map. exists (RR_DName d). split; [apply ND; reflexivity|].
      replace (ends_with (x ++ dn_name d) (dn_name d)) with true; [left; reflexivity|]. symmetry. apply ends_with_spec. exists x. reflexivity.
    - f_equal. apply ND. assert (I : In c (c :: t)) by (left; reflexivity). rewrite <- E in I.
      apply in_flat_map in I as (r & Ir & I). destruct r; try (destruct I; fail). destruct (ends_with _ _); [|destruct I]. destruct I as [->|[]]. exact Ir. }
  rewrite FC, FD in H. destruct (strip_suffix (x ++ dn_name d) (dn_name d)) as [p|] eqn:SS.
  - assert (p = x) as ->. { rewrite (ResolveP.strip_suffix_spec _ x _ eq_refl) in SS. congruence. }
    destruct (name_try_from (x ++ dn_delegation d)); [exact H|]. injection H as <-. reflexivity.
  - exfalso. discriminate H.
Qed.
Lemma like_not_found : ~ Finds echo_env false l_small k_like (bs "x.d.a.") 1 (l_resp l_small k_like (bs "x.d.a.") 1) (bs "zd.a.").
Proof.
  intros H. apply (finds_verified echo_env false l_small k_like (bs "x.d.a.") 1 (l_data l_small k_like (bs "x.d.a.") 1)) in H;
    [|apply (proper_w [[120]; [100]; [97]]); reflexivity|vm_compute; reflexivity|split; discriminate|exact echo_sorts|exact like_signed|exact (serves_just _ _ _ _ _ like_just)|exact (proj1 like_answers)
     |exact (proj2 like_answers)|apply Nat.leb_le; reflexivity|exact queries_differ].
  destruct H as (v & k & l & E & Rv & R).
  assert (I : In (w_a "zd.a.") l).
  { apply R. eexists. split; [right; right; left; reflexivity|]. split; [left; reflexivity|]. split; [reflexivity|]. split; discriminate. }
  assert (ND : forall d, In (RR_DName d) (vr_rrs v) <-> d = {| dn_name := bs "d.a."; dn_delegation := bs "e.a." |}).
  { intros d. rewrite Rv. split.
    - intros (a & Ia & Ir & _). assert (X : HasRec k_like (RR_DName d)) by (exists a; auto). apply like_recs in X as [X|[X|X]]; [injection X as ->; reflexivity|discriminate X ..].
    - intros ->. eexists. split; [left; reflexivity|]. split; [left; reflexivity|]. split; discriminate. }
  assert (NC : forall c, In (RR_CName c) (vr_rrs v) -> cn_name c = bs "x.e.a." /\ cn_canonical c = bs "zd.a.").
  { intros c Ic. apply Rv in Ic as (a & Ia & Ir & _). assert (X : HasRec k_like (RR_CName c)) by (exists a; auto). apply like_recs in X as [X|[X|X]]; try discriminate X. injection X as ->. auto. }
  assert (NC' : forall n, n <> bs "x.e.a." -> forall c, In (RR_CName c) (vr_rrs v) -> cn_name c <> n) by (intros n Hn c Ic; destruct (NC c Ic) as [-> _]; congruence).
  destruct k as [|k]; [discriminate E|]. apply (resolve_dname _ _ _ _ _ (bs "x.") (NC' (bs "x.d.a.") ltac:(discriminate)) ND eq_refl) in E. cbn [dn_delegation] in E.
  replace (name_try_from (bs "x." ++ bs "e.a.")) with (Some (bs "x.e.a.")) in E by (vm_compute; reflexivity).
  destruct k as [|k]; [discriminate E|]. cbn [resolve_name] in E. destruct (find_cname (vr_rrs v) (bs "x.e.a.")) as [c|] eqn:FC.
  2: { unfold find_cname in FC. destruct (flat_map _ (vr_rrs v)) as [|? ?] eqn:X; [|discriminate FC]. assert (J : In {| cn_name := bs "x.e.a."; cn_canonical := bs "zd.a." |} []); [|destruct J].
       rewrite <- X. apply in_flat_map. exists (w_cname "x.e.a." "zd.a."). split; [|left; reflexivity]. apply Rv. eexists. split; [right; left; reflexivity|]. split; [left; reflexivity|]. split; discriminate. }
  assert (Ec : cn_canonical c = bs "zd.a.").
  { unfold find_cname in FC. destruct (flat_map _ (vr_rrs v)) as [|c' t] eqn:X; [discriminate FC|]. injection FC as ->. assert (J : In c (c :: t)) by (left; reflexivity). rewrite <- X in J.
    apply in_flat_map in J as (r & Ir & J). destruct r as [| | | | |c0| | | | | |]; try (destruct J; fail). destruct (bytes_eqb _ _); [|destruct J]. destruct J as [->|[]]. apply (NC _ Ir). }
  rewrite Ec in E. destruct k as [|k]; [discriminate E|].
  apply (resolve_dname _ _ _ _ _ (bs "z") (NC' (bs "zd.a.") ltac:(discriminate)) ND eq_refl) in E. cbn [dn_delegation] in E.
  replace (name_try_from (bs "z" ++ bs "e.a.")) with (Some (bs "ze.a.")) in E by (vm_compute; reflexivity).
  destruct k as [|k]; [discriminate E|]. cbn [resolve_name] in E.
  replace (find_cname (vr_rrs v) (bs "ze.a.")) with (@None cname) in E.
  2: { symmetry. unfold find_cname. destruct (flat_map _ (vr_rrs v)) as [|c' t] eqn:X; [reflexivity|]. exfalso. assert (J : In c' (c' :: t)) by (left; reflexivity). rewrite <- X in J.
       apply in_flat_map in J as (r & Ir & J). destruct r as [| | | | |c0| | | | | |]; try (destruct J; fail). destruct (NC _ Ir) as [En _]. rewrite En in J. destruct J. }
  replace (find_dname (vr_rrs v) (bs "ze.a.")) with (@None dname) in E.
  2: { symmetry. unfold find_dname. destruct (flat_map _ (vr_rrs v)) as [|c' t] eqn:X; [reflexivity|]. exfalso. assert (J : In c' (c' :: t)) by (left; reflexivity). rewrite <- X in J.
       apply in_flat_map in J as (r & Ir & J). destruct r as [| | | | | |d0| | | | |]; try (destruct J; fail). apply ND in Ir. rewrite Ir in J. destruct J. }
  injection E as <-. apply filter_In in I as [_ I]. discriminate I.
Qed.
Lemma root_not_found : ~ Finds echo_env false l_small k_root (bs "x.d.a.") 1 (l_resp l_small k_root (bs "x.d.a.") 1) (bs "x.").
Proof.
  intros H. apply (finds_verified echo_env false l_small k_root (bs "x.d.a.") 1 (l_data l_small k_root (bs "x.d.a.") 1)) in H;
    [|apply (proper_w [[120]; [100]; [97]]); reflexivity|vm_compute; reflexivity|split; discriminate|exact echo_sorts|exact root_signed|exact (serves_just _ _ _ _ _ root_just)|exact (proj1 root_answers)
     |exact (proj2 root_answers)|apply Nat.leb_le; reflexivity|exact queries_differ].
  destruct H as (v & k & l & E & Rv & R).
  assert (I : In (w_a "x.") l).
  { apply R. eexists. split; [right; left; reflexivity|]. split; [left; reflexivity|]. split; [reflexivity|]. split; discriminate. }
  assert (ND : forall d, In (RR_DName d) (vr_rrs v) <-> d = {| dn_name := bs "d.a."; dn_delegation := bs "." |}).
  { intros d. rewrite Rv. split.
    - intros (a & Ia & Ir & _). assert (X : HasRec k_root (RR_DName d)) by (exists a; auto). apply root_recs in X as [X|X]; [injection X as ->; reflexivity|discriminate X].
    - intros ->. eexists. split; [left; reflexivity|]. split; [left; reflexivity|]. split; discriminate. }
  assert (NC : forall c, ~ In (RR_CName c) (vr_rrs v)).
  { intros c Ic. apply Rv in Ic as (a & Ia & Ir & _). assert (X : HasRec k_root (RR_CName c)) by (exists a; auto). apply root_recs in X as [X|X]; discriminate X. }
  destruct k as [|k]; [discriminate E|]. apply (resolve_dname _ _ _ _ _ (bs "x.") (fun c Ic => False_ind _ (NC c Ic)) ND eq_refl) in E. cbn [dn_delegation] in E.
  replace (name_try_from (bs "x." ++ bs ".")) with (Some (bs "x..")) in E by (vm_compute; reflexivity).
  destruct k as [|k]; [discriminate E|]. cbn [resolve_name] in E.
  replace (find_cname (vr_rrs v) (bs "x..")) with (@None cname) in E.
  2: { symmetry. unfold find_cname. destruct (flat_map _ (vr_rrs v)) as [|c' t] eqn:X; [reflexivity|]. exfalso. assert (J : In c' (c' :: t)) by (left; reflexivity). rewrite <- X in J.
       apply in_flat_map in J as (r & Ir & J). destruct r as [| | | | |c0| | | | | |]; try (destruct J; fail). exact (NC _ Ir). }
  replace (find_dname (vr_rrs v) (bs "x..")) with (@None dname) in E.
  2: { symmetry. unfold find_dname. destruct (flat_map _ (vr_rrs v)) as [|c' t] eqn:X; [reflexivity|]. exfalso. assert (J : In c' (c' :: t)) by (left; reflexivity). rewrite <- X in J.
       apply in_flat_map in J as (r & Ir & J). destruct r as [| | | | | |d0| | | | |]; try (destruct J; fail). apply ND in Ir. rewrite Ir in J. destruct J. }
  injection E as <-. apply filter_In in I as [_ I]. discriminate I.
Qed.
Lemma sibling_refuted : ~ (forall e dbg zones answers n ty data resp m, proper_name n -> ty < 65536 -> ty <> 43 /\ ty <> 48 -> SortsNeeds e ->
  WellSigned e zones answers (FirstVouched e) -> Serves zones answers n ty data -> Answers data dbg n ty resp ->
  (forall m t rt, Asked data n ty m t -> In rt (data m t) -> wf_rr (fst rt)) -> (List.length zones <= 5)%nat ->
  Chain answers n m -> (forall k x d, Steps answers k n x -> HasRec answers (RR_DName d) -> x <> dn_name d) -> NoRootDname answers -> Finds e dbg zones answers n ty resp m).
Proof.
  intros H. apply like_not_found. apply (H echo_env false l_small k_like (bs "x.d.a.") 1 (l_data l_small k_like (bs "x.d.a.") 1));
    [apply (proper_w [[120]; [100]; [97]]); reflexivity|vm_compute; reflexivity|split; discriminate|exact echo_sorts|exact like_signed|exact (serves_just _ _ _ _ _ like_just)|exact (proj1 like_answers)
     |exact (proj2 like_answers)|apply Nat.leb_le; reflexivity|exact like_chain| |].
  - intros k x d S X. apply like_recs in X as [X|[X|X]]; try discriminate X. injection X as ->. cbn [dn_name]. apply like_steps in S as [ -> |[ -> | -> ]]; discriminate.
  - intros d X. apply like_recs in X as [X|[X|X]]; try discriminate X. injection X as ->. split; discriminate.
Qed.
Lemma root_refuted : ~ (forall e dbg zones answers n ty data resp m, proper_name n -> ty < 65536 -> ty <> 43 /\ ty <> 48 -> SortsNeeds e ->
  WellSigned e zones answers (FirstVouched e) -> Serves zones answers n ty data -> Answers data dbg n ty resp ->
  (forall m t rt, Asked data n ty m t -> In rt (data m t) -> wf_rr (fst rt)) -> (List.length zones <= 5)%nat ->
  Chain answers n m -> Aligned answers n -> Finds e dbg zones answers n ty resp m).
Proof.
  intros H. apply root_not_found. apply (H echo_env false l_small k_root (bs "x.d.a.") 1 (l_data l_small k_root (bs "x.d.a.") 1));
    [apply (proper_w [[120]; [100]; [97]]); reflexivity|vm_compute; reflexivity|split; discriminate|exact echo_sorts|exact root_signed|exact (serves_just _ _ _ _ _ root_just)|exact (proj1 root_answers)
     |exact (proj2 root_answers)|apply Nat.leb_le; reflexivity|exact root_chain|].
  intros k x d p S X E. apply root_recs in X as [X|X]; try discriminate X. injection X as ->. cbn [dn_name] in E. apply pre_of in E as [Ep Es].
  apply root_steps in S as [ -> | -> ]; vm_compute in Es; try discriminate Es. exists [120]. rewrite Ep. reflexivity.
Qed.
