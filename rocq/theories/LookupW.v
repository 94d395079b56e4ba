(** Worlds for Prop_Lookup. *)
From Verif Require Import Base BaseP NameM NameSpec NameP WireM WireP RRM SerM ValM RecSpec RecP2 SignedP ValSpec ValP ValP2 ValP3 ValW OrderW HeldP ResolveSpec ResolveP ResolveW QueryM QuerySpec QueryP QueryW
  AcceptSpec AcceptP2 AcceptW SecW LiveSpec LiveP LiveP2 LiveP3 LiveW LiveW2 LookupSpec LookupP.
From Coq Require Import String Permutation Lia.
Local Open Scope N_scope.

(** An alias, a DNAME, and the address. *)
Definition k_set (nm : string) (ty labels : N) (r : RR) : rset :=
  {| an_name := bs nm; an_ty := ty; an_recs := [r]; an_sigs := [o_rrsig nm ty labels "a." [r]] |}.
Definition k_chain : list rset :=
  [k_set "x.a." 5 2 (w_cname "x.a." "x.d.a."); k_set "d.a." 39 2 (w_dname "d.a." "e.a."); k_set "x.e.a." 1 3 (w_a "x.e.a.")].
(** The DNAME alone. *)
Definition k_owner : list rset := [k_set "d.a." 39 2 (w_dname "d.a." "e.a.")].

Ltac l_unf ::= unfold l_key, l_dsrec, l_by_zsk, l_zsk, o_rrsig, w_rrsig, w_key, w_ds, w_a, o_nsec, w_nsec, w_cname, w_dname.
Lemma chain_wf : Forall wf_rr (world_records l_small k_chain).
Proof. unfold l_small, k_chain, k_set, l_root, l_zone. l_wf_all. Qed.
Lemma owner_wf : Forall wf_rr (world_records l_small k_owner).
Proof. unfold l_small, k_owner, k_set, l_root, l_zone. l_wf_all. Qed.
Lemma da_labels : LabelsOf (bs "d.a.") [[100]; [97]].
Proof. labels. Qed.
Lemma xea_labels : LabelsOf (bs "x.e.a.") [[120]; [101]; [97]].
Proof. labels. Qed.
Lemma chain_signed : WellSigned echo_env l_small k_chain (FirstVouched echo_env).
Proof.
  apply world_signed; [exact chain_wf|vm_compute; reflexivity|apply nodup_b; vm_compute; reflexivity| | | |].
  - unfold k_chain, k_set. cbn [map an_name an_ty]. repeat constructor; cbn; intuition discriminate.
  - apply (first_vouched _ _ _ chain_wf). vm_compute. reflexivity.
  - intros a [<-|[<-|[<-|[]]]]; (apply Forall_cons; [|apply Forall_nil]); (eapply full_labels; [vm_compute; discriminate| |]);
      [exact xa_labels|reflexivity|exact da_labels|reflexivity|exact xea_labels|reflexivity].
  - intros a s pre l suf [<-|[<-|[<-|[]]]] [<-|[]] _ L E; exfalso;
      [exact (not_wild _ _ _ _ _ _ xa_labels L eq_refl E)|exact (not_wild _ _ _ _ _ _ da_labels L eq_refl E)|exact (not_wild _ _ _ _ _ _ xea_labels L eq_refl E)].
Qed.
Lemma owner_signed : WellSigned echo_env l_small k_owner (FirstVouched echo_env).
Proof.
  apply world_signed; [exact owner_wf|vm_compute; reflexivity|apply nodup_b; vm_compute; reflexivity| | | |].
  - repeat constructor. intros [].
  - apply (first_vouched _ _ _ owner_wf). vm_compute. reflexivity.
  - intros a [<-|[]]. apply Forall_cons; [|apply Forall_nil]. eapply full_labels; [vm_compute; discriminate|exact da_labels|reflexivity].
  - intros a s pre l suf [<-|[]] [<-|[]] _ L E. exfalso. exact (not_wild _ _ _ _ _ _ da_labels L eq_refl E).
Qed.
Lemma chain_just : ServesJust l_small k_chain (bs "x.a.") 1 (l_data l_small k_chain (bs "x.a.") 1).
Proof. split; [vm_compute; reflexivity|]. intros z [<-|[<-|[]]]; (split; [|intros R]); vm_compute; reflexivity. Qed.
Lemma owner_just : ServesJust l_small k_owner (bs "d.a.") 39 (l_data l_small k_owner (bs "d.a.") 39).
Proof. split; [vm_compute; reflexivity|]. intros z [<-|[<-|[]]]; (split; [|intros R]); vm_compute; reflexivity. Qed.
Lemma owner_serves : Serves l_small k_owner (bs "d.a.") 39 (l_data l_small k_owner (bs "d.a.") 39).
Proof. exact (serves_just _ _ _ _ _ owner_just). Qed.
Lemma owner_answers : Answers (l_data l_small k_owner (bs "d.a.") 39) false (bs "d.a.") 39 (l_resp l_small k_owner (bs "d.a.") 39) /\
  (forall m t rt, Asked (l_data l_small k_owner (bs "d.a.") 39) (bs "d.a.") 39 m t -> In rt (l_data l_small k_owner (bs "d.a.") 39 m t) -> wf_rr (fst rt)).
Proof. answers_of owner_signed owner_wf. exact owner_just. Qed.

(** Steps by texts. *)
Lemma labels_text n o t x : o <> [46] -> t <> [46] -> redirect_labels n o t x -> exists p, p <> [] /\ n = p ++ o /\ x = p ++ t.
Proof.
  intros No Nd (pre & ls & ls' & NE & En & Eo' & Ed' & -> & F).
  assert (ls <> []) by (intros ->; apply No; exact Eo'). assert (ls' <> []) by (intros ->; apply Nd; exact Ed').
  assert (D : forall l, l <> [] -> dotted l = dots l) by (intros [|] ?; [contradiction|reflexivity]).
  assert (NA : forall b, pre ++ b <> []). { intros b E. apply app_eq_nil in E. tauto. }
  exists (dots pre). rewrite En, Eo', Ed'. rewrite !D, !dots_app by auto. split; [|auto].
  destruct pre as [|x pre]; [contradiction|]. cbn [dots flat_map]. intros E. apply app_eq_nil in E as [E _]. apply app_eq_nil in E as [_ E]. discriminate E.
Qed.
Lemma chain_recs r : HasRec k_chain r -> r = w_cname "x.a." "x.d.a." \/ r = w_dname "d.a." "e.a." \/ r = w_a "x.e.a.".
Proof. intros (a & [<-|[<-|[<-|[]]]] & [<-|[]]); auto. Qed.
Lemma chain_step n t : Step k_chain n t -> (n = bs "x.a." /\ t = bs "x.d.a.") \/ (exists p, p <> [] /\ n = p ++ bs "d.a." /\ t = p ++ bs "e.a.").
Proof.
  intros S. destruct S as [c H|n d t _ H R]; apply chain_recs in H as [H|[H|H]]; try discriminate H; injection H as ->.
  - left. auto.
  - right. apply labels_text in R; [exact R|discriminate|discriminate].
Qed.
Lemma pre_of (p s n : list N) : n = p ++ s -> p = firstn (List.length n - List.length s) n /\ skipn (List.length n - List.length s) n = s.
Proof.
  intros ->. rewrite app_length, PeanoNat.Nat.add_sub, firstn_app, firstn_all, PeanoNat.Nat.sub_diag, skipn_app, skipn_all, PeanoNat.Nat.sub_diag. cbn [firstn skipn app].
  rewrite app_nil_r. auto.
Qed.
Lemma chain_steps k x : Steps k_chain k (bs "x.a.") x -> x = bs "x.a." \/ x = bs "x.d.a." \/ x = bs "x.e.a.".
Proof.
  intros S. remember (bs "x.a.") as n eqn:En. induction S as [n|k n x t S IH St]; [auto|]. specialize (IH En). subst n.
  apply chain_step in St as [[-> ->]|(p & NE & E & ->)]; [auto|]. apply pre_of in E as [Ep Es].
  destruct IH as [ -> |[ -> | -> ]]; vm_compute in Es; try discriminate Es. rewrite Ep. right. right. reflexivity.
Qed.
Lemma chain_chain : Chain k_chain (bs "x.a.") (bs "x.e.a.").
Proof.
  assert (S1 : Step k_chain (bs "x.a.") (bs "x.d.a.")).
  { apply (Step_cname _ {| cn_name := bs "x.a."; cn_canonical := bs "x.d.a." |}). eexists. split; [left; reflexivity|left; reflexivity]. }
  assert (S2 : Step k_chain (bs "x.d.a.") (bs "x.e.a.")).
  { apply (Step_dname _ _ {| dn_name := bs "d.a."; dn_delegation := bs "e.a." |}).
    - intros c H. apply chain_recs in H as [H|[H|H]]; try discriminate H. injection H as ->. discriminate.
    - eexists. split; [right; left; reflexivity|left; reflexivity].
    - exists [[120]], [[100]; [97]], [[101]; [97]]. split; [discriminate|]. split; [reflexivity|]. split; [reflexivity|]. split; [reflexivity|]. split; [reflexivity|].
      unfold label_ok, label_char. cbn [app]. repeat match goal with |- Forall _ (_ :: _) => apply Forall_cons | |- Forall _ [] => apply Forall_nil | |- _ /\ _ => split end; first [discriminate | lia | cbn; lia]. }
  constructor.
  - exists 2%nat. econstructor; [econstructor; [constructor|exact S1]|exact S2].
  - intros t S. apply chain_step in S as [[E _]|(p & _ & E & _)]; [discriminate E|]. apply pre_of in E as [_ E]. vm_compute in E. discriminate E.
  - intros k x t t' S A B. apply chain_steps in S. apply chain_step in A as [[-> ->]|(p & NE & E & ->)]; apply chain_step in B as [[E' ->]|(q & NE' & E' & ->)].
    + reflexivity.
    + apply pre_of in E' as [_ E']. vm_compute in E'. discriminate E'.
    + rewrite E' in E. apply pre_of in E as [_ E]. vm_compute in E. discriminate E.
    + rewrite E in E'. apply app_inv_tail in E'. subst q. reflexivity.
  - intros k x t S A. apply (Steps_S _ _ _ _ _ S) in A. apply chain_steps in A as [ -> |[ -> | -> ]]; match goal with |- acceptable ?y => assert (V : valid_name y) by (vm_compute; reflexivity); apply valid_name_spec in V; apply V end.
Qed.
Lemma chain_aligned : Aligned k_chain (bs "x.a.").
Proof.
  intros k x d p S H E. apply chain_recs in H as [H|[H|H]]; try discriminate H. injection H as ->. cbn [dn_name] in E. apply pre_of in E as [Ep Es].
  apply chain_steps in S as [ -> |[ -> | -> ]]; vm_compute in Es; try discriminate Es. exists [120]. rewrite Ep. reflexivity.
Qed.
Lemma chain_roots : NoRootDname k_chain.
Proof. intros d H. apply chain_recs in H as [H|[H|H]]; try discriminate H. injection H as ->. split; discriminate. Qed.
(** A resolver which also answers with the CNAME it makes up for the DNAME, without a signature. *)
Definition k_made : list rset :=
  [k_set "x.a." 5 2 (w_cname "x.a." "x.d.a."); k_set "d.a." 39 2 (w_dname "d.a." "e.a.");
   {| an_name := bs "x.d.a."; an_ty := 5; an_recs := [w_cname "x.d.a." "x.e.a."]; an_sigs := [] |}; k_set "x.e.a." 1 3 (w_a "x.e.a.")].
Lemma made_wf : Forall wf_rr (world_records l_small k_made).
Proof. unfold l_small, k_made, k_set, l_root, l_zone. l_wf_all. Qed.
Lemma made_serves : Serves l_small k_chain (bs "x.a.") 1 (l_data l_small k_made (bs "x.a.") 1).
Proof.
  split.
  - replace (map fst (l_data l_small k_made (bs "x.a.") 1 (bs "x.a.") 1)) with (answer_records k_made) by (vm_compute; reflexivity).
    unfold k_chain, k_made, answer_records. cbn [flat_map an_recs an_sigs k_set map app]. do 4 apply Adds_keep. apply Adds_more; [|apply adds_refl].
    split; [discriminate|]. intros s I T E. assert (C : existsb (fun s => (rs_ty s =? 5) && bytes_eqb (rs_name s) (bs "x.d.a.")) (all_sigs l_small k_chain) = false) by (vm_compute; reflexivity).
    apply not_true_iff_false in C. apply C. apply existsb_exists. exists s. split; [exact I|]. rewrite T, E. apply andb_true_iff. split; [reflexivity|apply bytes_eqb_eq; reflexivity].
  - intros z Iz. destruct chain_just as [_ H]. destruct (H z Iz) as [A B]. assert (X : forall t, t <> 1 -> l_data l_small k_made (bs "x.a.") 1 (zn_name z) t = l_data l_small k_chain (bs "x.a.") 1 (zn_name z) t).
    { intros t Ht. unfold l_data, lookup. replace (t =? 1) with false by (symmetry; apply N.eqb_neq; exact Ht). rewrite andb_false_r. reflexivity. }
    rewrite !X by discriminate. rewrite A. split; [apply adds_refl|]. intros R. rewrite (B R). apply adds_refl.
Qed.
Lemma made_answers : Answers (l_data l_small k_made (bs "x.a.") 1) false (bs "x.a.") 1 (l_resp l_small k_made (bs "x.a.") 1) /\
  (forall m t rt, Asked (l_data l_small k_made (bs "x.a.") 1) (bs "x.a.") 1 m t -> In rt (l_data l_small k_made (bs "x.a.") 1 m t) -> wf_rr (fst rt)).
Proof.
  split.
  - intros m t A. apply (signed_asked l_small k_chain (bs "x.a.") 1 _ ltac:(split; discriminate)) in A.
    apply (tree_asked echo_env l_small k_chain (bs "x.a.") 1 _ _ (FirstVouched echo_env) chain_signed (signed_serves _ _ _ _ _ _ chain_signed made_serves) ltac:(split; discriminate) (Permutation_refl _)) in A.
    assert (I : In (m, t) (qlist l_small (bs "x.a.") 1)).
    { remember (m, t) as q. destruct A as [|z Iz|z Iz R]; [left; reflexivity| |]; right; apply in_app_iff; [left|right].
      - apply (in_map (fun z => (zn_name z, 48))). exact Iz.
      - apply (in_map (fun z => (zn_name z, 43))). apply filter_In. split; [exact Iz|]. rewrite <- rootb_iff in R. destruct (rootb z); [exfalso; auto|reflexivity]. }
    assert (F : Forall (fun q => let m := l_resp l_small k_made (bs "x.a.") 1 (fst q) (snd q) in
      bytes_ok m = true /\ (len m <=? 65535) = true /\ items_of false m = Some (l_data l_small k_made (bs "x.a.") 1 (fst q) (snd q))) (qlist l_small (bs "x.a.") 1)).
    { unfold qlist. repeat (apply Forall_cons; [cbn zeta; split; [vm_compute; reflexivity|split; vm_compute; reflexivity]|]). apply Forall_nil. }
    rewrite Forall_forall in F. destruct (F _ I) as (B & L & E). cbn [fst snd] in *. apply N.leb_le in L. apply is_bytes_ok in B.
    split; [exact B|]. split; [exact L|]. split; [apply (items_response false); assumption|discriminate].
  - intros m t rt _ I. pose proof made_wf as WF. rewrite Forall_forall in WF. apply WF, (data_incl l_small k_made (bs "x.a.") 1 m t), in_map. exact I.
Qed.
Lemma made_found : Finds echo_env false l_small k_chain (bs "x.a.") 1 (l_resp l_small k_made (bs "x.a.") 1) (bs "x.e.a.").
Proof.
  apply (lookup_works echo_env false l_small k_chain (bs "x.a.") 1 (l_data l_small k_made (bs "x.a.") 1)); [apply (proper_w [[120]; [97]]); reflexivity|vm_compute; reflexivity|split; discriminate|exact echo_sorts
    |exact chain_signed|exact made_serves|exact (proj1 made_answers)|exact (proj2 made_answers)|apply PeanoNat.Nat.leb_le; reflexivity|exact chain_chain|exact chain_aligned|exact chain_roots].
Qed.

(** Asked for the DNAME itself, the library looks for what it redirects to. *)
Lemma owner_recs r : HasRec k_owner r -> r = w_dname "d.a." "e.a.".
Proof. intros (a & [<-|[]] & [<-|[]]). reflexivity. Qed.
Lemma owner_chain : Chain k_owner (bs "d.a.") (bs "d.a.").
Proof.
  assert (NS : forall t, ~ Step k_owner (bs "d.a.") t).
  { intros t S. remember (bs "d.a.") as n eqn:En. destruct S as [c H|n d t _ H R]; apply owner_recs in H; [discriminate H|]. injection H as ->.
    apply labels_text in R; [|discriminate|discriminate]. destruct R as (p & NE & E & _). apply pre_of in E as [Ep _]. rewrite En in Ep. apply NE. exact Ep. }
  constructor.
  - exists 0%nat. constructor.
  - exact NS.
  - intros k x t t' S A _. exfalso. revert t A. remember (bs "d.a.") as n eqn:En. induction S as [n|k n x u S IH St]; intros t A; [subst n; exact (NS _ A)|exact (IH En NS _ St)].
  - intros k x t S A. exfalso. revert t A. remember (bs "d.a.") as n eqn:En. induction S as [n|k n x u S IH St]; intros t A; [subst n; exact (NS _ A)|exact (IH En NS _ St)].
Qed.
Lemma resolve_end rrs k : forall n l d, resolve_name rrs k n = Ok l -> ~ In (RR_DName d) l.
Proof.
  induction k as [|k IH]; intros n l d H; [discriminate H|]. cbn [resolve_name] in H. destruct (find_cname rrs n) as [c|]; [eapply IH; exact H|].
  destruct (find_dname rrs n) as [d'|] eqn:D.
  - destruct (strip_suffix n (dn_name d')) as [p|]; [|discriminate H]. destruct (name_try_from _) as [x|]; [eapply IH; exact H|]. injection H as <-. intros [].
  - injection H as <-. intros I. apply filter_In in I as [I E]. apply bytes_eqb_eq in E. cbn [rr_name] in E. unfold find_dname in D.
    destruct (flat_map _ rrs) as [|? ?] eqn:F; [|discriminate D]. assert (X : In d []); [|destruct X]. rewrite <- F. apply in_flat_map. exists (RR_DName d). split; [exact I|].
    rewrite <- E. replace (ends_with (dn_name d) (dn_name d)) with true; [left; reflexivity|]. symmetry. apply ends_with_spec. exists []. reflexivity.
Qed.
Lemma owner_not_found : ~ Finds echo_env false l_small k_owner (bs "d.a.") 39 (l_resp l_small k_owner (bs "d.a.") 39) (bs "d.a.").
Proof.
  intros (qs & sent & _ & _ & H). specialize (H [flat_map frame (map (fun q => l_resp l_small k_owner (bs "d.a.") 39 (fst q) (snd q)) qs)] []).
  cbn [List.concat] in H. destruct (H eq_refl) as (proof & ttl & _ & H'). destruct (H' false) as (inp & fuel & v & k & l & _ & E2 & E3 & R). clear H H'.
  assert (I : In (w_dname "d.a." "e.a.") l).
  { apply R. eexists. split; [left; reflexivity|]. split; [left; reflexivity|]. split; [reflexivity|]. split; discriminate. }
  exact (resolve_end _ _ _ _ _ E3 I).
Qed.
Lemma lookup_refuted : ~ (forall e dbg zones answers n ty data resp m, proper_name n -> ty < 65536 -> ty <> 43 /\ ty <> 48 -> SortsNeeds e ->
  WellSigned e zones answers (FirstVouched e) -> Serves zones answers n ty data -> Answers data dbg n ty resp ->
  (forall m t rt, Asked data n ty m t -> In rt (data m t) -> wf_rr (fst rt)) -> (List.length zones <= 5)%nat ->
  Chain answers n m -> NoRootDname answers -> Finds e dbg zones answers n ty resp m).
Proof.
  intros H. apply owner_not_found. apply (H echo_env false l_small k_owner (bs "d.a.") 39 (l_data l_small k_owner (bs "d.a.") 39)); [apply (proper_w [[100]; [97]]); reflexivity|vm_compute; reflexivity|split; discriminate|exact echo_sorts
    |exact owner_signed|exact owner_serves|exact (proj1 owner_answers)|exact (proj2 owner_answers)|apply PeanoNat.Nat.leb_le; reflexivity|exact owner_chain|].
  intros d X. apply owner_recs in X. injection X as ->. split; discriminate.
Qed.
