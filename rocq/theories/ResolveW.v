(** Counterexamples for [resolve_name]. *)
From Verif Require Import Base BaseP NameM NameSpec NameP RRM ValM RecSpec ValSpec ResolveSpec ResolveP ValW.
From Coq Require Import String Lia Arith.
Local Open Scope N_scope.

Definition w_cname (n t : string) : RR := RR_CName {| cn_name := bs n; cn_canonical := bs t |}.
Definition w_dname (n t : string) : RR := RR_DName {| dn_name := bs n; dn_delegation := bs t |}.

(** A CNAME to itself, properly signed. *)
Definition w_cname_loop : list RR := w_root ++ w_zone "a." 1 ++ [w_cname "x.a." "x.a."; w_sig "x.a." 5 2 "a."].
Lemma cname_loop_held : Forall Held w_cname_loop.
Proof. unfold w_cname_loop, w_cname. held_all. Qed.
Lemma cname_loop_ok : exists v, run w_cname_loop = Ok v /\ vr_rrs v = [w_cname "x.a." "x.a."].
Proof. eexists. split; vm_compute; reflexivity. Qed.
Lemma cname_loops rrs n c k : find_cname rrs n = Some c -> cn_canonical c = n -> resolve_name rrs k n = Loop.
Proof. intros F E. induction k as [|k IH]; [reflexivity|]. cbn [resolve_name]. rewrite F, E. exact IH. Qed.
Lemma resolve_terminates_refuted : ~ (forall e fuel inp v n, Forall Held inp -> verify_rr_stream e false fuel inp = Ok v ->
  name_try_from n = Some n -> exists k, resolve_name (vr_rrs v) k n <> Loop).
Proof.
  intros H. destruct cname_loop_ok as (v & Ev & Er).
  destruct (H toy_env 10%nat w_cname_loop v (bs "x.a.") cname_loop_held Ev eq_refl) as [k Hk]. apply Hk.
  rewrite Er. eapply cname_loops; reflexivity.
Qed.

(** The DNAME a. -> b. at its own owner, and at a sibling of it. *)
Definition w_dname_self : list RR :=
  w_root ++ w_zone "a." 1 ++ w_zone "b." 1 ++ [w_dname "a." "b."; w_sig "a." 39 1 "a."; w_a "b."; w_sig "b." 1 1 "b."].
Definition w_dname_sibling : list RR :=
  w_root ++ w_zone "a." 1 ++ w_zone "xb." 1 ++ [w_dname "a." "b."; w_sig "a." 39 1 "a."; w_a "xb."; w_sig "xb." 1 1 "xb."].
Lemma dname_self_held : Forall Held w_dname_self.
Proof. unfold w_dname_self, w_dname. held_all. Qed.
Lemma dname_sibling_held : Forall Held w_dname_sibling.
Proof. unfold w_dname_sibling, w_dname. held_all. Qed.
Lemma dname_self_ok : exists v, run w_dname_self = Ok v /\ In (w_dname "a." "b.") (vr_rrs v) /\
  resolve_name (vr_rrs v) 3 (bs "a.") = Ok [w_a "b."].
Proof. eexists. split; [vm_compute; reflexivity|]. split; [cbn; auto|vm_compute; reflexivity]. Qed.
Lemma dname_sibling_ok : exists v, run w_dname_sibling = Ok v /\ In (w_dname "a." "b.") (vr_rrs v) /\
  resolve_name (vr_rrs v) 3 (bs "xa.") = Ok [w_a "xb."].
Proof. eexists. split; [vm_compute; reflexivity|]. split; [cbn; auto|vm_compute; reflexivity]. Qed.

Lemma not_below l t : List.length l = 1%nat -> Forall label_ok l -> ~ redirect_labels (dotted l) (bs "a.") (bs "b.") t.
Proof.
  intros L F (pre & ls & ls' & NE & En & Eo & _ & _ & Fa). destruct l as [|x [|y l]]; try discriminate L.
  assert (ls = [[97]]).
  { destruct ls as [|a ls]; [discriminate Eo|]. apply (dots_inj (a :: ls) [[97]]); [|repeat constructor; cbn; intros [H|[]]; discriminate|symmetry; exact Eo].
    apply labels_ok_nodot. rewrite !Forall_app in Fa. apply proper_labels_ok. tauto. }
  subst ls. destruct pre as [|p pre]; [contradiction|]. 
  assert (E : p :: pre ++ [[97]] = [x]).
  { apply dots_inj; [|apply labels_ok_nodot; exact F|symmetry; exact En].
    apply labels_ok_nodot, proper_labels_ok. rewrite app_assoc in Fa. rewrite Forall_app in Fa. apply Fa. }
  injection E as _ E. destruct pre; discriminate E.
Qed.

Lemma dname_no_resolution rrs l rs k :
  (forall r, In r rrs -> ~ cname_at (dotted l) r /\ (forall d, r = RR_DName d -> d = {| dn_name := bs "a."; dn_delegation := bs "b." |})) ->
  List.length l = 1%nat -> Forall label_ok l -> Resolves redirect_labels rrs k (dotted l) rs -> rs = at_name rrs (dotted l) \/ rs = [].
Proof.
  intros H L F (m & A & T). inversion A as [n|k' n m1 m' S A']; subst.
  - destruct T as [[_ ->]|[_ ->]]; auto.
  - exfalso. inversion S as [n' c Fc|n' d t C Fd R Ac]; subst.
    + apply first_of_in in Fc. destruct Fc as [I Fc]. apply H in I. tauto.
    + apply first_of_in in Fd. destruct Fd as [I Fd]. apply H in I. destruct I as [_ I]. specialize (I _ eq_refl). subst d.
      eapply not_below; eauto.
Qed.

Lemma one_label (c : list N) : forallb (fun x => (33 <=? x) && (x <=? 126) && negb (x =? 34) && negb (x =? 46)) c = true -> (List.length c <= 63)%nat ->
  Forall label_ok [c].
Proof.
  intros F L. constructor; [|constructor]. split; [exact L|]. rewrite forallb_forall in F. rewrite Forall_forall. intros x I. apply F in I.
  unfold label_char. rewrite !Bool.andb_true_iff, !Bool.negb_true_iff, !N.eqb_neq, !N.leb_le in I. tauto.
Qed.

Definition DnameStatement : Prop := forall e fuel inp v n k l, Forall Held inp -> verify_rr_stream e false fuel inp = Ok v ->
  proper_name n -> resolve_name (vr_rrs v) k n = Ok l -> exists j, Resolves redirect_labels (vr_rrs v) j n l.

Lemma dname_self_refuted : ~ DnameStatement.
Proof.
  intros H. destruct dname_self_ok as (v & Ev & _ & Er).
  destruct (H toy_env 10%nat w_dname_self v (bs "a.") 3%nat _ dname_self_held Ev (proper_w [bs "a"] eq_refl) Er) as (j & R).
  change (bs "a.") with (dotted [bs "a"]) in R. apply dname_no_resolution in R; [|clear R|reflexivity|apply one_label; [reflexivity|cbn; lia]].
  - vm_compute in Ev. injection Ev as <-. vm_compute in R. destruct R; discriminate.
  - vm_compute in Ev. injection Ev as <-. clear. intros r I. cbn in I.
    repeat destruct I as [<-|I]; [..|destruct I]; (split; [intros (c & E & _); discriminate E|intros d E; try discriminate E]).
    injection E as <-. reflexivity.
Qed.
Lemma dname_sibling_refuted : ~ (forall e fuel inp v n k l, Forall Held inp -> verify_rr_stream e false fuel inp = Ok v ->
  proper_name n -> (forall r, In r (vr_rrs v) -> rr_name r <> n) ->
  resolve_name (vr_rrs v) k n = Ok l -> exists j, Resolves redirect_labels (vr_rrs v) j n l).
Proof.
  intros H. destruct dname_sibling_ok as (v & Ev & _ & Er).
  assert (D : forall r, In r (vr_rrs v) -> rr_name r <> bs "xa." /\ ~ cname_at (dotted [bs "xa"]) r /\ (forall d, r = RR_DName d -> d = {| dn_name := bs "a."; dn_delegation := bs "b." |})).
  { vm_compute in Ev. injection Ev as <-. clear. intros r I. cbn in I.
    repeat destruct I as [<-|I]; [..|destruct I]; (split; [vm_compute; discriminate|]; split; [intros (c & E & _); discriminate E|intros d E; try discriminate E]).
    injection E as <-. reflexivity. }
  destruct (H toy_env 10%nat w_dname_sibling v (bs "xa.") 3%nat _ dname_sibling_held Ev (proper_w [bs "xa"] eq_refl) (fun r I => proj1 (D r I)) Er) as (j & R).
  change (bs "xa.") with (dotted [bs "xa"]) in R. apply dname_no_resolution in R; [|intros r I; exact (proj2 (D r I))|reflexivity|apply one_label; [reflexivity|cbn; lia]].
  vm_compute in Ev. injection Ev as <-. vm_compute in R. destruct R; discriminate.
Qed.
