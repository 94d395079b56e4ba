(** Witnesses for Prop_Wild: worlds given by a table of zones, each with one key and what it signs. The
    digests are as in SecW.v; a signature of a message under a key verifies if the zone has signed that
    message. *)
From Verif Require Import Base BaseP NameM WireM RRM SerM ValM NameSpec NameP WireSpec WireP RecSpec RecP RecP2 CodecSpec ValSpec ValP ValP2 ValP3 ValW QueryP SignedP OrderW SecSpec SecP SecP2 SecW WildSpec WildP.
From Coq Require Import String Permutation.
Import List.ListNotations.
Local Open Scope N_scope.

Definition table := list (dnskey * list (rrsig * list RR)).
Definition t_env (t : table) : env :=
  {| e_sha1 := fun m => m; e_sha256 := fun m => if bytes_eqb m (key_id x_root) then root_digest_20326 else m;
     e_sig := fun _ pk m _ => match pk with PK_RSA md _ => existsb (fun x => bytes_eqb (1 :: 3 :: md) (dk_pubkey (fst x)) && signs (snd x) m) t | _ => false end;
     e_sort_needs := fun l => l |}.
Definition t_keys (t : table) (z : list N) (k : dnskey) : Prop := In k (map fst t) /\ dk_name k = z.
Definition t_signed (t : table) (z : list N) (s : rrsig) (rs : list RR) : Prop := exists k sets, In (k, sets) t /\ dk_name k = z /\ In (s, rs) sets.
Definition t_key (nm : string) (c : N) : dnskey := {| dk_name := bs nm; dk_flags := 257; dk_protocol := 3; dk_alg := 8; dk_pubkey := [1; 3; 74; c] |}.
Definition t_ds (k : dnskey) : RR := RR_DS {| ds_name := dk_name k; ds_key_tag := key_tag k; ds_alg := 8; ds_digest_type := 2; ds_digest := key_id k |}.

Definition set_ok (t : table) (x : rrsig * list RR) : Prop :=
  Forall wf_rr (snd x) /\ proper_name (rs_key_name (fst x)) /\ Held (RR_RRSig (fst x)) /\ RfcLabels (fst x) /\ snd x <> [] /\
  Forall (fun r => rr_name r = rs_name (fst x) /\ rr_ty r = rs_ty (fst x)) (snd x) /\
  (rs_ty (fst x) = 43 -> exists k, snd x = [t_ds k] /\ In k (map fst t) /\ dk_name k = rs_name (fst x) /\ hd 0 (write_name (dk_name k)) <> 0) /\
  (rs_ty (fst x) = 48 -> exists k, snd x = [RR_DnsKey k] /\ In k (map fst t)) /\
  (rs_ty (fst x) = 43 \/ rs_ty (fst x) = 48 \/ rs_ty (fst x) = 50 -> ~ is_wildcard (rs_name (fst x))).
Record table_ok (t : table) : Prop := {
  tk_root : In x_root (map fst t);
  tk_keys : forall x, In x t -> exists c, dk_pubkey (fst x) = [1; 3; 74; c];
  tk_diff : forall x y, In x t -> In y t -> dk_pubkey (fst x) = dk_pubkey (fst y) -> dk_name (fst x) = dk_name (fst y);
  tk_sets : forall x, In x t -> Forall (set_ok t) (snd x) }.

Lemma t_sha t m d : m <> key_id x_root -> e_sha256 (t_env t) m = d -> m = d.
Proof. intros N H. cbn [e_sha256 t_env] in H. rewrite (proj2 (bytes_eqb_neq _ _) N) in H. exact H. Qed.
Lemma t_set t z s rs : table_ok t -> t_signed t z s rs -> set_ok t (s, rs).
Proof. intros T (k & sets & H1 & _ & H2). pose proof (tk_sets _ T _ H1) as F. cbn [snd] in F. rewrite Forall_forall in F. exact (F _ H2). Qed.
Lemma t_world t : table_ok t -> World (t_env t) (t_keys t) (fun _ => True) (t_signed t).
Proof.
  intros T. constructor.
  - intros z k s msg _ [Hk Hz] Hc _.
    assert (HV : (exists md ex, RsaLayout (dk_pubkey k) md ex /\ exists alg, e_sig (t_env t) alg (PK_RSA md ex) msg (rs_signature s) = true)).
    { inversion Hc as [md ex H1 H2 H3 H4 H5 | md ex H1 H2 H3 H4 H5 | H1 H5 | H1 H5 | H1 H5]; [eauto | eauto | discriminate H5 | discriminate H5 | discriminate H5]. }
    destruct HV as (md & ex & HL & alg & HS). apply in_map_iff in Hk as (x & <- & Hx). destruct (tk_keys _ T x Hx) as (c & EK). rewrite EK in HL. apply x_layout in HL. subst md.
    cbn [e_sig t_env] in HS. apply existsb_exists in HS as (y & Hy & HS). apply andb_true_iff in HS as [H1 H2]. apply bytes_eqb_eq in H1. rewrite <- EK in H1.
    apply x_signs in H2 as (s0 & rs & HI & ->). destruct y as [k' sets].
    assert (HSG : t_signed t z s0 rs) by (exists k', sets; split; [exact Hy |]; split; [rewrite <- Hz; symmetry; apply (tk_diff _ T x (k', sets) Hx Hy H1) | exact HI]).
    exists s0, rs. split; [exact HSG |]. destruct (t_set _ _ _ _ T HSG) as (A & B & _). apply pub_msg_ok; assumption.
  - intros z s rs HS. destruct (t_set _ _ _ _ T HS) as (_ & _ & A & B & C & D & _). auto.
  - intros k Hk Hn (d & Hd & _ & _ & HH). split; [| exact Hn].
    assert (T2 : ds_digest_type d = 2 /\ (exists c t, ds_digest d = c :: t /\ c <> 0)) by (destruct Hd as [<- | [<- | []]]; (split; [reflexivity |]; eexists; eexists; split; [vm_compute; reflexivity | discriminate])).
    destruct T2 as [T2 (c & t' & ED & NC)]. destruct HH as [[_ HH] | (T1 & _)]; [| congruence].
    destruct (list_eq_dec N.eq_dec (key_id k) (key_id x_root)) as [E | NE]; [rewrite (key_id_inj k x_root); [apply (tk_root _ T) | exact Hn | exact E] |].
    exfalso. symmetry in HH. apply t_sha in HH; [| exact NE]. rewrite ED in HH. unfold key_id in HH. rewrite Hn in HH. cbn [write_name] in HH. apply (f_equal (hd 1)) in HH. cbn in HH. congruence.
  - intros z s rs k HS T4 Hk Hn (d & Hd & _ & _ & HH). destruct (t_set _ _ _ _ T HS) as (_ & _ & _ & _ & _ & _ & A & _). destruct (A T4) as (k0 & E1 & E2 & E3 & E4). cbn [fst snd] in *. subst rs.
    cbn [flat_map ds_of t_ds app] in Hd. destruct Hd as [<- | []]. destruct HH as [[_ HH] | (T1 & _)]; [| discriminate T1]. cbn [ds_digest] in HH. symmetry in HH.
    assert (NE : key_id k <> key_id x_root).
    { unfold key_id. rewrite Hn, <- E3. intros Z. destruct (write_name (dk_name k0)) as [| c w]; [apply E4; reflexivity |]. apply (f_equal (hd 7)) in Z. cbn in Z, E4. congruence. }
    apply t_sha in HH; [| exact NE]. apply key_id_inj in HH; [| congruence]. subst k0. split; assumption.
  - intros z s rs k HS T4 Hk. destruct (t_set _ _ _ _ T HS) as (_ & _ & _ & _ & _ & _ & _ & A & _). destruct (A T4) as (k0 & E1 & E2). cbn [snd] in E1. subst rs. destruct Hk as [Hk | []]. injection Hk as <-. split; auto.
  - intros z s rs HS T4. destruct (t_set _ _ _ _ T HS) as (_ & _ & _ & _ & _ & _ & _ & _ & A). apply A. cbn [fst]. tauto.
Qed.

(** No NSEC3 records; the NSEC records of a zone against all that it signs. *)
Definition nsec_true (n : nsec) (s : rrsig) : bool :=
  negb (match nsec_ord (ns_name n) (rs_name s), nsec_ord (rs_name s) (ns_next n) with Lt, Lt => true | _, _ => false end) &&
  (negb (bytes_eqb (ns_name n) (rs_name s)) || mask_contains (ns_types n) (rs_ty s)).
Definition table_true (t : table) : bool :=
  forallb (fun x => forallb (fun a => forallb (fun d => match d with RR_NSec n => forallb (fun b => nsec_true n (fst b)) (snd x) | RR_NSec3 _ => false | _ => true end) (snd a)) (snd x)) t.
Lemma t_truthful t : table_ok t -> (forall x y, In x t -> In y t -> dk_name (fst x) = dk_name (fst y) -> x = y) -> table_true t = true -> Truthful (t_env t) (t_signed t).
Proof.
  intros T U H. unfold table_true in H. rewrite forallb_forall in H.
  assert (K : forall z s rs d s' rs', t_signed t z s rs -> In d rs -> t_signed t z s' rs' ->
    match d with RR_NSec n => nsec_true n s' = true /\ valid_name (ns_name n) /\ valid_name (ns_next n) | RR_NSec3 _ => False | _ => True end /\ valid_name (rs_name s')).
  { intros z s rs d s' rs' H1 H2 H3. pose proof (t_set _ _ _ _ T H1) as (WF & _). destruct (t_set _ _ _ _ T H3) as (_ & _ & HH & _). split; [| apply HH].
    destruct H1 as (k & sets & A1 & A2 & A3), H3 as (k' & sets' & B1 & B2 & B3). assert (E := U _ _ A1 B1 (eq_trans A2 (eq_sym B2))). injection E as <- <-.
    specialize (H _ A1). cbn [snd] in H. rewrite forallb_forall in H. specialize (H _ A3). cbn [snd] in H. rewrite forallb_forall in H. specialize (H _ H2).
    cbn [snd] in WF. rewrite Forall_forall in WF. specialize (WF _ H2). apply wf_held in WF. destruct d; try exact I; [| discriminate H]. rewrite forallb_forall in H. split; [exact (H _ B3) |]. split; apply WF. }
  constructor.
  - intros z s rs d s' rs' H1 H2 H3 _ HB. destruct (K z s rs d s' rs' H1 H2 H3) as [G V]. destruct d as [| | | | | | | | | | n | n]; try contradiction. destruct G as (G & V1 & V2).
    destruct HB as [HB1 HB2]. apply (proj1 (nsec_ord_names _ _ V1 V)) in HB1. apply (proj1 (nsec_ord_names _ _ V V2)) in HB2. unfold nsec_true in G. rewrite HB1, HB2 in G. discriminate G.
  - intros z s rs d s' rs' H1 H2 H3 _ HB. destruct (K z s rs d s' rs' H1 H2 H3) as [G V]. destruct d as [| | | | | | | | | | n | n]; try contradiction. destruct G as (G & V1 & V2).
    cbn [OwnRecord] in HB. unfold nsec_true in G. apply andb_true_iff in G as [_ G]. rewrite HB, bytes_eqb_refl in G. cbn [negb orb] in G. apply has_type_spec. exact G.
  - intros z s rs HS T4. destruct (t_set _ _ _ _ T HS) as (_ & _ & _ & _ & _ & _ & _ & _ & A). apply A. cbn [fst]. tauto.
Qed.

(** ** A name below an empty non-terminal: b.a. has no records, x.b.a. has. *)
Definition e_other : RR := RR_A {| a_name := bs "x.b.a."; a_addr := [127; 0; 0; 2] |}.
Definition e_table : table :=
  [(x_root, x_root_sets);
   (x_key, [(x_sig "a." 48 1 x_key, [RR_DnsKey x_key]); (x_sig "a." 47 1 x_key, [w_nsec "a." "*.a." [46; 47; 48]]);
            (x_sig "*.a." 1 1 x_key, [w_a "*.a."]); (x_sig "*.a." 47 1 x_key, [w_nsec "*.a." "x.b.a." [1; 46; 47]]);
            (x_sig "x.b.a." 1 3 x_key, [e_other]); (x_sig "x.b.a." 47 3 x_key, [w_nsec "x.b.a." "a." [1; 46; 47]])])].
Definition e_inp : list RR :=
  x_zones ++ [w_a "x.b.a."; RR_RRSig (x_sig "x.b.a." 1 1 x_key); w_nsec "*.a." "x.b.a." [1; 46; 47]; RR_RRSig (x_sig "*.a." 47 1 x_key)].
Lemma e_ok : exists v, verify_rr_stream (t_env e_table) false 10 e_inp = Ok v /\ vr_rrs v = [w_a "x.b.a."].
Proof. eexists. split; vm_compute; reflexivity. Qed.

(** ** A delegation: a. delegates b.a., whose wildcard is *.b.a. *)
Definition d_key : dnskey := t_key "b.a." 92.
Definition d_other : RR := RR_A {| a_name := bs "x.b.a."; a_addr := [127; 0; 0; 2] |}.
Definition d_table : table :=
  [(x_root, x_root_sets);
   (x_key, [(x_sig "a." 48 1 x_key, [RR_DnsKey x_key]); (x_sig "a." 47 1 x_key, [w_nsec "a." "b.a." [46; 47; 48]]);
            (x_sig "b.a." 43 2 x_key, [t_ds d_key]); (x_sig "b.a." 47 2 x_key, [w_nsec "b.a." "c.a." [2; 43; 46; 47]]);
            (x_sig "c.a." 1 2 x_key, [w_a "c.a."]); (x_sig "c.a." 47 2 x_key, [w_nsec "c.a." "a." [1; 46; 47]])]);
   (d_key, [(x_sig "b.a." 48 2 d_key, [RR_DnsKey d_key]); (x_sig "b.a." 47 2 d_key, [w_nsec "b.a." "*.b.a." [46; 47; 48]]);
            (x_sig "*.b.a." 1 2 d_key, [w_a "*.b.a."]); (x_sig "*.b.a." 47 2 d_key, [w_nsec "*.b.a." "x.b.a." [1; 46; 47]]);
            (x_sig "x.b.a." 1 3 d_key, [d_other]); (x_sig "x.b.a." 47 3 d_key, [w_nsec "x.b.a." "b.a." [1; 46; 47]])])].
Definition d_inp : list RR :=
  x_zones ++ [t_ds d_key; RR_RRSig (x_sig "b.a." 43 2 x_key); w_nsec "b.a." "c.a." [2; 43; 46; 47]; RR_RRSig (x_sig "b.a." 47 2 x_key);
              RR_DnsKey d_key; RR_RRSig (x_sig "b.a." 48 2 d_key); w_a "x.b.a."; RR_RRSig (x_sig "x.b.a." 1 2 d_key)].
Lemma d_ok : exists v, verify_rr_stream (t_env d_table) false 10 d_inp = Ok v /\ vr_rrs v = [w_a "x.b.a."].
Proof. eexists. split; vm_compute; reflexivity. Qed.

Ltac t_wf := split; [unfold x_ds, t_ds, x_other, e_other, d_other, x_root, x_key, d_key, t_key, w_a, w_nsec; cbn [typed_rr];
    repeat match goal with |- _ /\ _ => split | |- is_mask _ => split; [vm_compute; reflexivity |] | |- is_bytes _ => bytes_in_range | |- proper_name _ => x_name | |- _ => in_range end
  | split; [unfold x_ds, t_ds, x_other, e_other, d_other, w_a, w_nsec; cbn [fits_rr]; first [exact I | vm_compute; discriminate] | exact I]].
Ltac t_rfc ls := apply (x_rfc _ ls); [x_labels | cbn; lia | reflexivity | reflexivity].
Ltac t_one := split; [apply Forall_cons; [t_wf | apply Forall_nil] |]; split; [x_name |]; split; [cbn [fst]; x_held |];
  split; [cbn [fst]; first [t_rfc (@nil (list N)) | t_rfc [[97]] | t_rfc [[42]; [97]] | t_rfc [[98]; [97]] | t_rfc [[99]; [97]] | t_rfc [[120]; [98]; [97]] | t_rfc [[42]; [98]; [97]]] |];
  split; [discriminate |]; split; [apply Forall_cons; [split; reflexivity | apply Forall_nil] |];
  split; [let H := fresh in intros H; first [discriminate H | exists x_key; split; [reflexivity |]; split; [cbn; tauto |]; split; [reflexivity | discriminate] | exists d_key; split; [reflexivity |]; split; [cbn; tauto |]; split; [reflexivity | discriminate]] |];
  split; [let H := fresh in intros H; first [discriminate H | first [exists x_root; split; [reflexivity | cbn; tauto] | exists x_key; split; [reflexivity | cbn; tauto] | exists d_key; split; [reflexivity | cbn; tauto]]] |];
  let H := fresh in let p := fresh in let E := fresh in intros H (p & E); vm_compute in E; first [discriminate E | destruct H as [H | [H | H]]; discriminate H].
Ltac t_sets := cbn [snd x_root_sets]; repeat (apply Forall_cons; [t_one |]); apply Forall_nil.
Lemma e_table_ok : table_ok e_table.
Proof.
  constructor.
  - left. reflexivity.
  - intros x [<- | [<- | []]]; eexists; reflexivity.
  - intros x y [<- | [<- | []]] [<- | [<- | []]] H; first [reflexivity | discriminate H].
  - intros x [<- | [<- | []]]; t_sets.
Qed.
Lemma d_table_ok : table_ok d_table.
Proof.
  constructor.
  - left. reflexivity.
  - intros x [<- | [<- | [<- | []]]]; eexists; reflexivity.
  - intros x y [<- | [<- | [<- | []]]] [<- | [<- | [<- | []]]] H; first [reflexivity | discriminate H].
  - intros x [<- | [<- | [<- | []]]]; t_sets.
Qed.
Lemma e_truthful : Truthful (t_env e_table) (t_signed e_table).
Proof. apply t_truthful; [exact e_table_ok | | vm_compute; reflexivity]. intros x y [<- | [<- | []]] [<- | [<- | []]] H; first [reflexivity | discriminate H]. Qed.
Lemma d_truthful : Truthful (t_env d_table) (t_signed d_table).
Proof. apply t_truthful; [exact d_table_ok | | vm_compute; reflexivity]. intros x y [<- | [<- | [<- | []]]] [<- | [<- | [<- | []]]] H; first [reflexivity | discriminate H]. Qed.
Ltac t_held_all := repeat (apply Forall_cons; [unfold Held, x_ds, t_ds, x_sig, x_root, x_key, d_key, t_key, w_a, w_nsec; cbn [typed_rr];
  repeat match goal with |- _ /\ _ => split | |- is_mask _ => split; [vm_compute; reflexivity |] | |- is_bytes _ => bytes_in_range | |- _ => in_range end |]); apply Forall_nil.
Ltac t_fits_all := repeat (apply Forall_cons; [unfold x_ds, t_ds, x_sig, x_root, x_key, d_key, t_key, w_a, w_nsec; cbn [fits_rr]; first [exact I | vm_compute; discriminate] |]); apply Forall_nil.
Lemma e_held : Forall Held e_inp.
Proof. unfold e_inp, x_zones. cbn [app]. t_held_all. Qed.
Lemma e_fits : Forall fits_rr e_inp.
Proof. unfold e_inp, x_zones. cbn [app]. t_fits_all. Qed.
Lemma d_held : Forall Held d_inp.
Proof. unfold d_inp, x_zones. cbn [app]. t_held_all. Qed.
Lemma d_fits : Forall fits_rr d_inp.
Proof. unfold d_inp, x_zones. cbn [app]. t_fits_all. Qed.
Lemma e_next : ProperNext e_inp.
Proof. intros n H. unfold e_inp, x_zones in H. cbn [app In] in H. repeat match type of H with _ \/ _ => destruct H as [H | H] end; try contradiction; try discriminate H; injection H as <-; x_name. Qed.
Lemma d_next : ProperNext d_inp.
Proof. intros n H. unfold d_inp, x_zones in H. cbn [app In] in H. repeat match type of H with _ \/ _ => destruct H as [H | H] end; try contradiction; try discriminate H; injection H as <-; x_name. Qed.
Lemma e_not_own d : In d e_inp -> ~ OwnRecord (t_env e_table) d (bs "x.b.a.").
Proof. intros H O. unfold e_inp, x_zones in H. cbn [app In] in H. repeat match type of H with _ \/ _ => destruct H as [H | H] end; try contradiction; subst d; cbn [OwnRecord x_ds w_a w_nsec] in O; try contradiction; discriminate O. Qed.
Lemma d_not_own d : In d d_inp -> ~ OwnRecord (t_env d_table) d (bs "x.b.a.").
Proof. intros H O. unfold d_inp, x_zones in H. cbn [app In] in H. repeat match type of H with _ \/ _ => destruct H as [H | H] end; try contradiction; subst d; cbn [OwnRecord x_ds t_ds w_a w_nsec] in O; try contradiction; discriminate O. Qed.
Lemma d_labels n ls : n = bs "x.b.a." -> LabelsOf n ls -> ls = [[120]; [98]; [97]].
Proof. intros -> L. apply (labelsof_inj (bs "x.b.a.")); [exact L |]. split; [reflexivity |]. split; [x_labels | discriminate]. Qed.
Lemma d_one : OneLabel d_inp (bs "x.b.a.") 1.
Proof.
  intros s ls H N T L. apply (d_labels _ _ eq_refl) in L. subst ls. unfold d_inp, x_zones in H. cbn [app In] in H.
  repeat match type of H with _ \/ _ => destruct H as [H | H] end; try contradiction; try discriminate H; injection H as <-; first [discriminate N | cbn; lia].
Qed.
(** Not published. *)
Lemma t_not_published t r : forallb (fun x => forallb (fun a => forallb (fun y => match y with RR_A b => negb (bytes_eqb (a_name b) (a_name r) && bytes_eqb (a_addr b) (a_addr r)) | _ => true end) (snd a)) (snd x)) t = true ->
  ~ PublishedAt (t_signed t) (RR_A r).
Proof.
  intros H (z & s & rs & (k & sets & H1 & _ & H2) & _ & _ & H3). rewrite forallb_forall in H. specialize (H _ H1). cbn [snd] in H. rewrite forallb_forall in H. specialize (H _ H2). cbn [snd] in H.
  rewrite forallb_forall in H. specialize (H _ H3). cbn in H. rewrite !bytes_eqb_refl in H. discriminate H.
Qed.
Lemma ent_refuted : ~ (forall e KeyOf Honest Signed fuel inp v r z s rs, World e KeyOf Honest Signed -> (forall d, Honest d) -> Truthful e Signed -> SortsNeeds e ->
  Forall Held inp -> Forall fits_rr inp -> ProperNext inp -> verify_rr_stream e false fuel inp = Ok v -> In r (vr_rrs v) ->
  Signed z s rs -> rs_name s = rr_name r -> rs_ty s = rr_ty r ->
  (forall d, In d inp -> ~ OwnRecord e d (rr_name r)) -> (forall z' s' rs', Signed z' s' rs' -> rs_ty s' = 47 -> z' = z) ->
  PublishedAt Signed r).
Proof.
  intros H. destruct e_ok as (v & E & R).
  apply (t_not_published e_table {| a_name := bs "x.b.a."; a_addr := [127; 0; 0; 1] |}); [vm_compute; reflexivity |].
  apply (H (t_env e_table) (t_keys e_table) (fun _ => True) (t_signed e_table) 10%nat e_inp v (w_a "x.b.a.") (bs "a.") (x_sig "x.b.a." 1 3 x_key) [e_other]); auto.
  - apply t_world, e_table_ok.
  - exact e_truthful.
  - intros l. apply Permutation_refl.
  - exact e_held.
  - exact e_fits.
  - exact e_next.
  - rewrite R. left. reflexivity.
  - exists x_key. eexists. split; [right; left; reflexivity |]. split; [reflexivity |]. do 4 right. left. reflexivity.
  - exact e_not_own.
  - intros z' s' rs' (k & sets & H1 & <- & H2) T. destruct H1 as [H1 | [H1 | []]]; injection H1 as <- <-; [| reflexivity]. destruct H2 as [H2 | [H2 | []]]; apply pair_equal_spec in H2 as [<- _]; discriminate T.
Qed.
Lemma delegation_refuted : ~ (forall e KeyOf Honest Signed fuel inp v r z s rs, World e KeyOf Honest Signed -> (forall d, Honest d) -> Truthful e Signed -> SortsNeeds e ->
  Forall Held inp -> Forall fits_rr inp -> ProperNext inp -> verify_rr_stream e false fuel inp = Ok v -> In r (vr_rrs v) ->
  Signed z s rs -> rs_name s = rr_name r -> rs_ty s = rr_ty r -> OneLabel inp (rr_name r) (rr_ty r) ->
  (forall d, In d inp -> ~ OwnRecord e d (rr_name r)) ->
  PublishedAt Signed r).
Proof.
  intros H. destruct d_ok as (v & E & R).
  apply (t_not_published d_table {| a_name := bs "x.b.a."; a_addr := [127; 0; 0; 1] |}); [vm_compute; reflexivity |].
  apply (H (t_env d_table) (t_keys d_table) (fun _ => True) (t_signed d_table) 10%nat d_inp v (w_a "x.b.a.") (bs "b.a.") (x_sig "x.b.a." 1 3 d_key) [d_other]); auto.
  - apply t_world, d_table_ok.
  - exact d_truthful.
  - intros l. apply Permutation_refl.
  - exact d_held.
  - exact d_fits.
  - exact d_next.
  - rewrite R. left. reflexivity.
  - exists d_key. eexists. split; [right; right; left; reflexivity |]. split; [reflexivity |]. do 4 right. left. reflexivity.
  - exact d_one.
  - exact d_not_own.
Qed.

(** ** The record of the name itself: x.a. exists, and its NSEC record says so. *)
Definition o_table : table :=
  [(x_root, x_root_sets);
   (x_key, [(x_sig "a." 48 1 x_key, [RR_DnsKey x_key]); (x_sig "a." 47 1 x_key, [w_nsec "a." "*.a." [46; 47; 48]]);
            (x_sig "*.a." 1 1 x_key, [w_a "*.a."]); (x_sig "*.a." 47 1 x_key, [w_nsec "*.a." "x.a." [1; 46; 47]]);
            (x_sig "x.a." 1 2 x_key, [x_other]); (x_sig "x.a." 47 2 x_key, [w_nsec "x.a." "z.a." [1; 46; 47]]);
            (x_sig "z.a." 1 2 x_key, [w_a "z.a."]); (x_sig "z.a." 47 2 x_key, [w_nsec "z.a." "a." [1; 46; 47]])])].
Definition o_inp : list RR :=
  x_zones ++ [w_a "x.a."; RR_RRSig (x_sig "x.a." 1 1 x_key); w_nsec "x.a." "z.a." [1; 46; 47]; RR_RRSig (x_sig "x.a." 47 2 x_key)].
Lemma o_ok : exists v, verify_rr_stream (t_env o_table) false 10 o_inp = Ok v /\ vr_rrs v = [w_a "x.a."].
Proof. eexists. split; vm_compute; reflexivity. Qed.
(** The answer as it should be, and one with another record denying the name. *)
Definition o_plain : list RR := x_zones ++ [x_other; RR_RRSig (x_sig "x.a." 1 2 x_key)].
Definition o_denied : list RR :=
  x_zones ++ [w_a "x.a."; RR_RRSig (x_sig "x.a." 1 1 x_key); w_nsec "*.a." "x.a." [1; 46; 47]; RR_RRSig (x_sig "*.a." 47 1 x_key)].
Lemma o_plain_ok : (exists v, verify_rr_stream (t_env o_table) false 10 o_plain = Ok v /\ vr_rrs v = [x_other]) /\ verify_rr_stream (t_env o_table) false 10 o_denied = Err Invalid.
Proof. split; [eexists; split; vm_compute; reflexivity | vm_compute; reflexivity]. Qed.
Ltac t_rfc2 := first [t_rfc [[120]; [97]] | t_rfc [[122]; [97]]].
Ltac t_one2 := split; [apply Forall_cons; [t_wf | apply Forall_nil] |]; split; [x_name |]; split; [cbn [fst]; x_held |]; split; [cbn [fst]; t_rfc2 |];
  split; [discriminate |]; split; [apply Forall_cons; [split; reflexivity | apply Forall_nil] |];
  split; [let H := fresh in intros H; discriminate H |]; split; [let H := fresh in intros H; discriminate H |];
  let H := fresh in let p := fresh in let E := fresh in intros H (p & E); vm_compute in E; discriminate E.
Lemma o_table_ok : table_ok o_table.
Proof.
  constructor.
  - left. reflexivity.
  - intros x [<- | [<- | []]]; eexists; reflexivity.
  - intros x y [<- | [<- | []]] [<- | [<- | []]] H; first [reflexivity | discriminate H].
  - intros x [<- | [<- | []]]; [t_sets |]. cbn [snd]. repeat (apply Forall_cons; [first [t_one | t_one2] |]); apply Forall_nil.
Qed.
Lemma o_truthful : Truthful (t_env o_table) (t_signed o_table).
Proof. apply t_truthful; [exact o_table_ok | | vm_compute; reflexivity]. intros x y [<- | [<- | []]] [<- | [<- | []]] H; first [reflexivity | discriminate H]. Qed.
Lemma o_held : Forall Held o_inp.
Proof. unfold o_inp, x_zones. cbn [app]. t_held_all. Qed.
Lemma o_fits : Forall fits_rr o_inp.
Proof. unfold o_inp, x_zones. cbn [app]. t_fits_all. Qed.
Lemma o_next : ProperNext o_inp.
Proof. intros n H. unfold o_inp, x_zones in H. cbn [app In] in H. repeat match type of H with _ \/ _ => destruct H as [H | H] end; try contradiction; try discriminate H; injection H as <-; x_name. Qed.
Lemma o_labels ls : LabelsOf (bs "x.a.") ls -> ls = [[120]; [97]].
Proof. intros L. apply (labelsof_inj (bs "x.a.")); [exact L |]. split; [reflexivity |]. split; [x_labels | discriminate]. Qed.
Lemma o_one : OneLabel o_inp (bs "x.a.") 1.
Proof.
  intros s ls H N T L. apply o_labels in L. subst ls. unfold o_inp, x_zones in H. cbn [app In] in H.
  repeat match type of H with _ \/ _ => destruct H as [H | H] end; try contradiction; try discriminate H; injection H as <-; first [discriminate N | cbn; lia].
Qed.
Lemma o_alone : forall z s rs, t_signed o_table z s rs -> rs_ty s = 47 -> z = bs "a.".
Proof.
  intros z' s' rs' (k & sets & H1 & <- & H2) T. destruct H1 as [H1 | [H1 | []]]; injection H1 as <- <-; [| reflexivity]. destruct H2 as [H2 | [H2 | []]]; apply pair_equal_spec in H2 as [<- _]; discriminate T.
Qed.
Lemma own_refuted : ~ (forall e KeyOf Honest Signed fuel inp v r z s rs, World e KeyOf Honest Signed -> (forall d, Honest d) -> Truthful e Signed -> SortsNeeds e ->
  Forall Held inp -> Forall fits_rr inp -> ProperNext inp -> verify_rr_stream e false fuel inp = Ok v -> In r (vr_rrs v) ->
  Signed z s rs -> rs_name s = rr_name r -> rs_ty s = rr_ty r -> OneLabel inp (rr_name r) (rr_ty r) ->
  (forall z' s' rs', Signed z' s' rs' -> rs_ty s' = 47 -> z' = z) ->
  PublishedAt Signed r).
Proof.
  intros H. destruct o_ok as (v & E & R).
  apply (t_not_published o_table {| a_name := bs "x.a."; a_addr := [127; 0; 0; 1] |}); [vm_compute; reflexivity |].
  apply (H (t_env o_table) (t_keys o_table) (fun _ => True) (t_signed o_table) 10%nat o_inp v (w_a "x.a.") (bs "a.") (x_sig "x.a." 1 2 x_key) [x_other]); auto.
  - apply t_world, o_table_ok.
  - exact o_truthful.
  - intros l. apply Permutation_refl.
  - exact o_held.
  - exact o_fits.
  - exact o_next.
  - rewrite R. left. reflexivity.
  - exists x_key. eexists. split; [right; left; reflexivity |]. split; [reflexivity |]. do 4 right. left. reflexivity.
  - exact o_one.
  - exact o_alone.
Qed.
Lemma wild_example : World (t_env o_table) (t_keys o_table) (fun _ => True) (t_signed o_table) /\ Truthful (t_env o_table) (t_signed o_table) /\
  (exists v, verify_rr_stream (t_env o_table) false 10 o_plain = Ok v /\ vr_rrs v = [x_other] /\ PublishedAt (t_signed o_table) x_other) /\
  verify_rr_stream (t_env o_table) false 10 o_denied = Err Invalid.
Proof.
  split; [apply t_world, o_table_ok |]. split; [exact o_truthful |]. destruct o_plain_ok as [(v & E & R) X]. split; [| exact X]. exists v. split; [exact E |]. split; [exact R |].
  exists (bs "a."), (x_sig "x.a." 1 2 x_key), [x_other]. split; [exists x_key; eexists; split; [right; left; reflexivity |]; split; [reflexivity |]; do 4 right; left; reflexivity |]. split; [reflexivity |]. split; [reflexivity | left; reflexivity].
Qed.
