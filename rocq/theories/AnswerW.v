(** Witnesses for Prop_Answer: a world as in WildW.v, in which a. has a DNAME record to c. *)
From Verif Require Import Base BaseP NameM WireM RRM SerM ValM NameSpec NameP WireSpec WireP RecSpec RecP RecP2 CodecSpec ValSpec ValP ValP2 ValP3 ValW QueryP SignedP OrderW SecSpec SecP SecP2 SecW WildSpec WildP WildW JsonW ResolveSpec ResolveP ResolveW AnswerSpec AnswerP.
From Coq Require Import String Permutation.
Import List.ListNotations.
Local Open Scope N_scope.

Definition s_addr (nm : string) (c : N) : RR := RR_A {| a_name := bs nm; a_addr := [127; 0; 0; c] |}.
Definition s_table : table :=
  [(x_root, x_root_sets ++ [(x_sig "xa." 1 1 x_root, [s_addr "xa." 2]); (x_sig "xc." 1 1 x_root, [s_addr "xc." 3]);
                            (x_sig "c." 1 1 x_root, [s_addr "c." 4]); (x_sig "x.c." 1 2 x_root, [s_addr "x.c." 5])]);
   (x_key, [(x_sig "a." 48 1 x_key, [RR_DnsKey x_key]); (x_sig "a." 39 1 x_key, [w_dname "a." "c."]); (x_sig "a." 1 1 x_key, [s_addr "a." 6])])].
Definition s_inp : list RR :=
  x_zones ++ [w_dname "a." "c."; RR_RRSig (x_sig "a." 39 1 x_key); s_addr "xc." 3; RR_RRSig (x_sig "xc." 1 1 x_root);
              s_addr "c." 4; RR_RRSig (x_sig "c." 1 1 x_root); s_addr "x.c." 5; RR_RRSig (x_sig "x.c." 1 2 x_root)].
Lemma s_ok : exists v, verify_rr_stream (t_env s_table) false 20 s_inp = Ok v /\ vr_rrs v = [s_addr "xc." 3; s_addr "c." 4; s_addr "x.c." 5; w_dname "a." "c."].
Proof. eexists. split; vm_compute; reflexivity. Qed.
Definition s_proof : list N := stream_of s_inp.
Lemma s_parsed : parse_rr_stream false s_proof = Ok s_inp.
Proof. vm_compute. reflexivity. Qed.
Lemma s_bytes : is_bytes s_proof.
Proof. assert (E : s_proof = ltac:(let t := eval vm_compute in s_proof in exact t)) by (vm_compute; reflexivity). rewrite E. bytes_in_range. Qed.

Ltac s_rfc := first [t_rfc (@nil (list N)) | t_rfc [[97]] | t_rfc [[99]] | t_rfc [[120; 97]] | t_rfc [[120; 99]] | t_rfc [[120]; [99]]].
Ltac s_wf := split; [unfold x_ds, s_addr, x_root, x_key, w_dname; cbn [typed_rr];
    repeat match goal with |- _ /\ _ => split | |- is_bytes _ => bytes_in_range | |- proper_name _ => x_name | |- _ => in_range end
  | split; [unfold x_ds, s_addr, w_dname; cbn [fits_rr]; first [exact I | vm_compute; discriminate] | exact I]].
Ltac s_one := split; [apply Forall_cons; [s_wf | apply Forall_nil] |]; split; [x_name |]; split; [cbn [fst]; x_held |]; split; [cbn [fst]; s_rfc |];
  split; [discriminate |]; split; [apply Forall_cons; [split; reflexivity | apply Forall_nil] |];
  split; [let H := fresh in intros H; first [discriminate H | exists x_key; split; [reflexivity |]; split; [cbn; tauto |]; split; [reflexivity | discriminate]] |];
  split; [let H := fresh in intros H; first [discriminate H | first [exists x_root; split; [reflexivity | cbn; tauto] | exists x_key; split; [reflexivity | cbn; tauto]]] |];
  let H := fresh in let p := fresh in let E := fresh in intros H (p & E); vm_compute in E; first [discriminate E | destruct H as [H | [H | H]]; discriminate H].
Lemma s_table_ok : table_ok s_table.
Proof.
  constructor.
  - left. reflexivity.
  - intros x [<- | [<- | []]]; eexists; reflexivity.
  - intros x y [<- | [<- | []]] [<- | [<- | []]] H; first [reflexivity | discriminate H].
  - intros x [<- | [<- | []]]; cbn [snd x_root_sets app]; repeat (apply Forall_cons; [s_one |]); apply Forall_nil.
Qed.

(** What is published, with the only alias. *)
Lemma s_sets z s rs : t_signed s_table z s rs -> exists r, rs = [r] /\ rr_name r = rs_name s /\
  match r with RR_CName _ => False | RR_DName d => dn_name d = bs "a." /\ dn_delegation d = bs "c." | _ => True end.
Proof.
  intros (k & sets & H1 & _ & H2). destruct H1 as [H1 | [H1 | []]]; injection H1 as <- <-; cbn [x_root_sets app In] in H2;
  repeat match type of H2 with _ \/ _ => destruct H2 as [H2 | H2] end; try contradiction; apply pair_equal_spec in H2 as [<- <-]; eexists; (split; [reflexivity |]; split; [reflexivity |]);
  unfold x_ds, s_addr, w_dname; first [exact I | split; reflexivity].
Qed.
Lemma s_no_cname c : ~ Issued (t_signed s_table) (RR_CName c).
Proof. intros (z & s & rs & HS & _ & _ & HI). apply s_sets in HS as (r & -> & _ & HR). destruct HI as [-> | []]. exact HR. Qed.
Lemma s_dname d : Issued (t_signed s_table) (RR_DName d) -> dn_name d = bs "a." /\ dn_delegation d = bs "c.".
Proof.
  intros (z & s & rs & HS & _ & HC & HI). apply s_sets in HS as (r & -> & HN & HR). destruct HI as [-> | []]. cbn [rename rr_name dn_name dn_delegation] in *.
  destruct HR as [R1 R2]. split; [| exact R2]. destruct HC as [-> | (pre & suf & _ & _ & E)]; [exact R1 |]. rewrite E in R1. destruct suf; discriminate R1.
Qed.
Lemma s_one_label n l t : n = l ++ [46] -> label_ok l -> l <> [] -> ~ redirect_labels n (bs "a.") (bs "c.") t.
Proof.
  intros -> LO NE (pre & ls & ls' & NP & En & Eo & _ & _ & F). rewrite !Forall_app in F. destruct F as (F1 & F2 & _).
  assert (D : forall x, x <> [] -> dotted x = dots x) by (intros [|] ?; [contradiction | reflexivity]).
  assert (P : forall x, Forall (fun y => y <> [] /\ label_ok y) x -> Forall nodot x) by (intros x Fx; apply labels_ok_nodot, proper_labels_ok; exact Fx).
  assert (NL : ls <> []) by (intros ->; discriminate Eo).
  rewrite D in En by (destruct pre; [contradiction | discriminate]).
  assert (X : [l] = pre ++ ls).
  { apply dots_inj; [constructor; [apply label_ok_nodot; exact LO | constructor] | apply Forall_app; auto | rewrite <- En; unfold dots; cbn; rewrite app_nil_r; reflexivity]. }
  apply (f_equal (@List.length (list N))) in X. rewrite app_length in X. destruct pre; [contradiction |]. destruct ls; [contradiction |]. cbn [List.length] in X. lia.
Qed.
Lemma s_stays n l m : n = l ++ [46] -> label_ok l -> l <> [] -> Leads redirect_labels (t_signed s_table) n m -> m = n.
Proof.
  intros E LO NE L. destruct L as [n | n m e A L]; [reflexivity |]. exfalso. destruct A as [c IS | n d t IS R _].
  - exact (s_no_cname _ IS).
  - apply s_dname in IS as [E1 E2]. rewrite E1, E2 in R. exact (s_one_label n l t E LO NE R).
Qed.
Lemma s_label c l : In c [97; 120] -> l = [97] -> label_ok (c :: l) /\ label_ok l.
Proof. intros H ->. split; (split; [cbn; lia |]); repeat constructor; destruct H as [<- | [<- | []]]; vm_compute; intuition discriminate. Qed.
Lemma s_xa m : Leads redirect_labels (t_signed s_table) (bs "xa.") m -> m = bs "xa.".
Proof. apply (s_stays _ [120; 97]); [reflexivity | apply (s_label 120 [97]); [right; left |]; reflexivity | discriminate]. Qed.
Lemma s_a m : Leads redirect_labels (t_signed s_table) (bs "a.") m -> m = bs "a.".
Proof. apply (s_stays _ [97]); [reflexivity | apply (s_label 97 [97]); [left |]; reflexivity | discriminate]. Qed.

Lemma sibling_answer_refuted : ~ (forall e KeyOf Honest Signed dbg fuel proof inp v k n l r, World e KeyOf Honest Signed -> (forall d, Honest d) -> SortsNeeds e -> is_bytes proof ->
  parse_rr_stream dbg proof = Ok inp -> verify_rr_stream e dbg fuel inp = Ok v -> proper_name n ->
  (forall c, Issued Signed (RR_CName c) -> proper_name (cn_canonical c)) ->
  (forall d, Issued Signed (RR_DName d) -> proper_name (dn_delegation d) /\ dn_delegation d <> [46]) ->
  (forall m d, Leads redirect_labels Signed n m -> Issued Signed (RR_DName d) -> m <> dn_name d) ->
  resolve_name (vr_rrs v) k n = Ok l -> In r l -> Leads redirect_labels Signed n (rr_name r)).
Proof.
  intros H. destruct s_ok as (v & E & R).
  assert (X : Leads redirect_labels (t_signed s_table) (bs "xa.") (rr_name (s_addr "xc." 3))).
  { apply (H (t_env s_table) (t_keys s_table) (fun _ => True) (t_signed s_table) false 20%nat s_proof s_inp v 5%nat (bs "xa.") [s_addr "xc." 3]); auto.
    - apply t_world, s_table_ok.
    - intros l. apply Permutation_refl.
    - exact s_bytes.
    - x_name.
    - intros c IS. destruct (s_no_cname c IS).
    - intros d IS. destruct (s_dname d IS) as [_ ->]. split; [x_name | discriminate].
    - intros m d L IS. rewrite (s_xa m L). destruct (s_dname d IS) as [-> _]. discriminate.
    - rewrite R. vm_compute. reflexivity.
    - left. reflexivity. }
  apply s_xa in X. discriminate X.
Qed.
Lemma owner_answer_refuted : ~ (forall e KeyOf Honest Signed dbg fuel proof inp v k n l r, World e KeyOf Honest Signed -> (forall d, Honest d) -> SortsNeeds e -> is_bytes proof ->
  parse_rr_stream dbg proof = Ok inp -> verify_rr_stream e dbg fuel inp = Ok v -> proper_name n ->
  (forall c, Issued Signed (RR_CName c) -> proper_name (cn_canonical c)) ->
  (forall d, Issued Signed (RR_DName d) -> proper_name (dn_delegation d) /\ dn_delegation d <> [46]) ->
  (forall m d p, Leads redirect_labels Signed n m -> Issued Signed (RR_DName d) -> m = p ++ dn_name d -> p = [] \/ exists q, p = q ++ [46]) ->
  resolve_name (vr_rrs v) k n = Ok l -> In r l -> Leads redirect_labels Signed n (rr_name r)).
Proof.
  intros H. destruct s_ok as (v & E & R).
  assert (X : Leads redirect_labels (t_signed s_table) (bs "a.") (rr_name (s_addr "c." 4))).
  { apply (H (t_env s_table) (t_keys s_table) (fun _ => True) (t_signed s_table) false 20%nat s_proof s_inp v 5%nat (bs "a.") [s_addr "c." 4]); auto.
    - apply t_world, s_table_ok.
    - intros l. apply Permutation_refl.
    - exact s_bytes.
    - x_name.
    - intros c IS. destruct (s_no_cname c IS).
    - intros d IS. destruct (s_dname d IS) as [_ ->]. split; [x_name | discriminate].
    - intros m d p L IS Em. rewrite (s_a m L) in Em. destruct (s_dname d IS) as [Eo _]. rewrite Eo in Em. left.
      apply (f_equal (@List.length N)) in Em. rewrite app_length in Em. destruct p; [reflexivity | cbn in Em; lia].
    - rewrite R. vm_compute. reflexivity.
    - left. reflexivity. }
  apply s_a in X. discriminate X.
Qed.
Lemma s_issued : Issued (t_signed s_table) (w_dname "a." "c.").
Proof.
  exists (bs "a."), (x_sig "a." 39 1 x_key), [w_dname "a." "c."]. split; [exists x_key; eexists; split; [right; left; reflexivity |]; split; [reflexivity |]; right; left; reflexivity |].
  split; [reflexivity |]. split; [left; reflexivity | left; reflexivity].
Qed.
Lemma s_leads : Leads redirect_labels (t_signed s_table) (bs "x.a.") (bs "x.c.").
Proof.
  eapply Leads_on; [| apply Leads_here]. eapply PubAlias_dname; [exact s_issued | |].
  - exists [[120]], [[97]], [[99]]. split; [discriminate |]. do 4 (split; [reflexivity |]). repeat constructor; try discriminate; cbn; lia.
  - apply valid_name_spec. vm_compute. reflexivity.
Qed.
Lemma s_example : World (t_env s_table) (t_keys s_table) (fun _ => True) (t_signed s_table) /\
  exists v, verify_rr_stream (t_env s_table) false 20 s_inp = Ok v /\ resolve_name (vr_rrs v) 5 (bs "x.a.") = Ok [s_addr "x.c." 5] /\
    Leads redirect_labels (t_signed s_table) (bs "x.a.") (bs "x.c.") /\
    resolve_name (vr_rrs v) 5 (bs "xa.") = Ok [s_addr "xc." 3] /\ resolve_name (vr_rrs v) 5 (bs "a.") = Ok [s_addr "c." 4].
Proof.
  split; [apply t_world, s_table_ok |]. destruct s_ok as (v & E & R). exists v. split; [exact E |]. rewrite R. split; [vm_compute; reflexivity |]. split; [exact s_leads |]. split; vm_compute; reflexivity.
Qed.
