(** Witnesses for Prop_Merge. *)
From Verif Require Import Base BaseP NameM WireM RRM SerM ValM NameSpec RecSpec CodecSpec ValSpec ValP ValP2 ValP3 ValW ValW2 OrderSpec OrderW AcceptSpec AcceptP AcceptP2 AcceptP3 AcceptP4 AcceptW AcceptP5 MergeSpec MergeP.
From Coq Require Import String Permutation Arith.
Local Open Scope N_scope.

(** ** Deciding the conditions *)
Lemma rr_eqb_eq x y : rr_eqb x y = true <-> x = y.
Proof. unfold rr_eqb. destruct (rr_eq_dec x y); split; congruence. Qed.
Fixpoint nodup_b (l : list RR) : bool := match l with [] => true | x :: t => negb (existsb (rr_eqb x) t) && nodup_b t end.
Lemma nodup_ok l : nodup_b l = true -> NoDup l.
Proof.
  induction l as [| x t IH]; cbn; [constructor |]. intros H. apply andb_true_iff in H as [H1 H2]. constructor; [| auto].
  intros I. apply negb_true_iff in H1. rewrite (proj2 (existsb_exists _ _)) in H1; [discriminate |]. exists x. split; [exact I | apply rr_eqb_eq; reflexivity].
Qed.
Definition sigs (l : list RR) : list rrsig := flat_map (fun r => match r with RR_RRSig s => [s] | _ => [] end) l.
Lemma in_sigs l s : In s (sigs l) <-> In (RR_RRSig s) l.
Proof.
  unfold sigs. rewrite in_flat_map. split; [intros (r & H1 & H2); destruct r; try contradiction; destruct H2 as [<- | []]; exact H1 |].
  intros H. exists (RR_RRSig s). split; [exact H | left; reflexivity].
Qed.
Definition nothing_more_b (a b : list RR) : bool :=
  forallb (fun s => forallb (fun r => negb (bytes_eqb (rr_name r) (rs_name s) && (rr_ty r =? rs_ty s)) || existsb (rr_eqb r) a) b) (sigs a).
Lemma nothing_more_ok a b : nothing_more_b a b = true -> NothingMore a b.
Proof.
  intros H s r Hs Hr E1 E2. unfold nothing_more_b in H. rewrite forallb_forall in H. apply in_sigs, H in Hs. rewrite forallb_forall in Hs. apply Hs in Hr.
  rewrite (proj2 (bytes_eqb_eq _ _) E1), E2, N.eqb_refl in Hr. cbn in Hr. apply existsb_exists in Hr as (y & I & E). apply rr_eqb_eq in E. subst y. exact I.
Qed.
Definition tidy_b (zones : list (list N)) (l : list RR) : bool :=
  forallb (fun s => existsb (bytes_eqb (if rs_ty s =? 48 then rs_name s else rs_key_name s)) zones) (sigs l).
Lemma tidy_ok e zones l : (forall z, In z zones -> Visited e l z) -> tidy_b zones l = true -> Tidy e l.
Proof.
  intros V H s Hs. unfold tidy_b in H. rewrite forallb_forall in H. apply in_sigs, H in Hs. apply existsb_exists in Hs as (z & I & E). apply bytes_eqb_eq in E.
  split; intros T; [rewrite T in E; cbn in E; rewrite E; auto |]. apply N.eqb_neq in T. rewrite T in E. rewrite E. auto.
Qed.
Definition keys (l : list RR) : list dnskey := flat_map (fun r => match r with RR_DnsKey s => [s] | _ => [] end) l.
Lemma in_keys l s : In s (keys l) <-> In (RR_DnsKey s) l.
Proof.
  unfold keys. rewrite in_flat_map. split; [intros (r & H1 & H2); destruct r; try contradiction; destruct H2 as [<- | []]; exact H1 |].
  intros H. exists (RR_DnsKey s). split; [exact H | left; reflexivity].
Qed.
Definition one_key_b (l : list RR) : bool :=
  forallb (fun k => forallb (fun k' => negb (bytes_eqb (dk_name k) (dk_name k') && (key_tag k =? key_tag k') && (dk_alg k =? dk_alg k')) || rr_eqb (RR_DnsKey k) (RR_DnsKey k')) (keys l)) (keys l).
Lemma one_key_ok l : one_key_b l = true -> OneKey l.
Proof.
  intros H k k' K K' E1 E2 E3. unfold one_key_b in H. rewrite forallb_forall in H. apply in_keys, H in K. rewrite forallb_forall in K. apply in_keys, K in K'.
  rewrite (proj2 (bytes_eqb_eq _ _) E1), E2, E3, !N.eqb_refl in K'. cbn in K'. apply rr_eqb_eq in K'. congruence.
Qed.
Definition one_sig_b (l : list RR) : bool :=
  forallb (fun k => forallb (fun k' => negb (bytes_eqb (rs_name k) (rs_name k') && (rs_ty k =? 48) && (rs_ty k' =? 48)) || rr_eqb (RR_RRSig k) (RR_RRSig k')) (sigs l)) (sigs l).
Lemma one_sig_ok l : one_sig_b l = true -> OneKeySig l.
Proof.
  intros H k k' K K' E2 E3 E1. unfold one_sig_b in H. rewrite forallb_forall in H. apply in_sigs, H in K. rewrite forallb_forall in K. apply in_sigs, K in K'.
  rewrite (proj2 (bytes_eqb_eq _ _) E1), E2, E3, !N.eqb_refl in K'. cbn in K'. apply rr_eqb_eq in K'. congruence.
Qed.
(** No signature is over a wildcard. *)
Definition exact_b (l : list RR) : bool := forallb (fun s => rs_labels s =? labels (rs_name s)) (sigs l).
Lemma exact_ok l : Forall Held l -> exact_b l = true -> forall e, OneZone e l.
Proof.
  intros Hh H e. apply (signers l []). intros s Hs _ _. right. unfold exact_b in H. rewrite forallb_forall in H. assert (E := H s (proj2 (in_sigs l s) Hs)). apply N.eqb_eq in E.
  rewrite Forall_forall in Hh. apply Hh in Hs. pose proof (held_name _ Hs) as V. cbn [rr_name] in V. destruct (valid_labels _ V) as (ls & L1 & L2). exists ls. split; [exact L1 | rewrite E; symmetry; apply labels_of; assumption].
Qed.

(** All signatures over wildcards are of one zone. *)
Definition one_signer_b (l : list RR) (z : list N) : bool :=
  forallb (fun s => (rs_ty s =? 43) || (rs_ty s =? 47) || (if list_eq_dec N.eq_dec (rs_key_name s) z then true else false) || (rs_labels s =? labels (rs_name s))) (sigs l).
Lemma one_signer_ok l z : Forall Held l -> one_signer_b l z = true -> forall e, OneZone e l.
Proof.
  intros Hh H e. apply (signers l z). intros s Hs N43 N47. unfold one_signer_b in H. rewrite forallb_forall in H. assert (E := H s (proj2 (in_sigs l s) Hs)). apply N.eqb_neq in N43, N47. rewrite N43, N47 in E. cbn [orb] in E.
  destruct (list_eq_dec N.eq_dec (rs_key_name s) z) as [K | _]; [left; exact K |]. right. cbn [orb] in E. apply N.eqb_eq in E.
  rewrite Forall_forall in Hh. apply Hh in Hs. pose proof (held_name _ Hs) as V. cbn [rr_name] in V. destruct (valid_labels _ V) as (ls & L1 & L2). exists ls. split; [exact L1 | rewrite E; symmetry; apply labels_of; assumption].
Qed.
(** NSEC3 records with these numbers of iterations, salt ab. *)
Definition params_b (l : list RR) (is : list N) : bool :=
  forallb (fun r => match r with RR_NSec3 n => existsb (N.eqb (n3_iters n)) is && (if list_eq_dec N.eq_dec (n3_salt n) [171] then true else false) | _ => true end) l.
Lemma params_ok l is p q : params_b l is = true -> (forall i, In i is -> (i, [171]) = p \/ (i, [171]) = q) -> forall e, TwoParams e l.
Proof.
  intros H HI e z nc ty _. exists p, q. intros n pre (z' & s & _ & _ & _ & Hn) _ _ _. apply in_rrset in Hn as [Hn _]. unfold params_b in H. rewrite forallb_forall in H. apply H in Hn.
  apply andb_true_iff in Hn as [H1 H2]. apply existsb_exists in H1 as (i & Hi & E). apply N.eqb_eq in E. subst i. destruct (list_eq_dec N.eq_dec (n3_salt n) [171]) as [-> | _]; [apply HI; exact Hi | discriminate].
Qed.

Section Chain.
  Variables (e : env) (inp : list RR).
  Hypothesis Hheld : Forall Held inp.
  Lemma visit z s : Visited e inp z -> In s (zone_rrsigs inp z) -> verify_rrsig e false s (zone_dnskeys inp z) (covered inp s) = Ok tt -> rs_ty s = 43 -> Visited e inp (rs_name s).
  Proof. intros V I K T. apply (Vi_child e inp z s V); [apply good_ok; auto | exact T]. Qed.
End Chain.

(** ** Two names of one zone *)
Definition m_y : list RR := o_zones ++ [w_a "y.a."; o_sig "y.a." 1 2 "a." [w_a "y.a."]].
Lemma m_y_held : Forall Held m_y.
Proof. unfold m_y. o_held_all. Qed.
Definition m_zones : list (list N) := [bs "."; bs "a."].
Ltac m_visit := intros [<- | [<- | []]]; [exact (Vi_root _ _) |].
Lemma o_plain_visited z : In z m_zones -> Visited echo_env o_plain z.
Proof.
  m_visit. apply (visit echo_env o_plain o_plain_held (bs ".") (o_rrsig "a." 43 1 "." [w_ds "a."]));
    [exact (Vi_root _ _) | apply in_zone_rrsigs; split; [do 3 right; left; reflexivity | split; [reflexivity | discriminate]] | vm_compute; reflexivity | reflexivity].
Qed.
Lemma m_y_visited z : In z m_zones -> Visited echo_env m_y z.
Proof.
  m_visit. apply (visit echo_env m_y m_y_held (bs ".") (o_rrsig "a." 43 1 "." [w_ds "a."]));
    [exact (Vi_root _ _) | apply in_zone_rrsigs; split; [do 3 right; left; reflexivity | split; [reflexivity | discriminate]] | vm_compute; reflexivity | reflexivity].
Qed.

Lemma m_xy : NoDup o_plain /\ NoDup m_y /\ NothingMore o_plain m_y /\ NothingMore m_y o_plain /\ Tidy echo_env o_plain /\ Tidy echo_env m_y /\
  OneKey (merged o_plain m_y) /\ OneKeySig (merged o_plain m_y) /\ TwoParams echo_env (merged o_plain m_y) /\ OneZone echo_env (merged o_plain m_y) /\
  (forall s, In (RR_RRSig s) (merged o_plain m_y) -> ~ EmptyMaxLabels (merged o_plain m_y) s).
Proof.
  split; [apply nodup_ok; vm_compute; reflexivity |]. split; [apply nodup_ok; vm_compute; reflexivity |].
  split; [apply nothing_more_ok; vm_compute; reflexivity |]. split; [apply nothing_more_ok; vm_compute; reflexivity |].
  split; [apply (tidy_ok _ m_zones _ o_plain_visited); vm_compute; reflexivity |]. split; [apply (tidy_ok _ m_zones _ m_y_visited); vm_compute; reflexivity |].
  split; [apply one_key_ok; vm_compute; reflexivity |]. split; [apply one_sig_ok; vm_compute; reflexivity |]. split; [apply no_nsec3; vm_compute; reflexivity |].
  split; [| apply not_max; vm_compute; reflexivity]. apply exact_ok; [| vm_compute; reflexivity].
  pose proof o_plain_held as H. pose proof m_y_held as H'. rewrite Forall_forall in *. intros r Hr. apply in_merged in Hr as [Hr | Hr]; auto.
Qed.
Lemma m_xy_ok : exists v, echo (merged o_plain m_y) = Ok v /\ vr_rrs v = [w_a "x.a."; w_a "y.a."].
Proof. eexists. split; vm_compute; reflexivity. Qed.

(** ** Plainly one after the other *)
Lemma concat_refuted : ~ (forall e a fuel v, Forall Held a -> SortsNeeds e -> NoDup a -> Tidy e a -> OneKey a -> OneKeySig a -> TwoParams e a -> OneZone e a ->
  (forall s, In (RR_RRSig s) a -> ~ EmptyMaxLabels a s) -> verify_rr_stream e false fuel a = Ok v -> exists fuel' v', verify_rr_stream e false fuel' (a ++ a) = Ok v').
Proof.
  intros H. destruct o_plain_ok as (v & E & _). apply (turned_down echo_env (o_plain ++ o_plain) 10); [vm_compute; reflexivity |].
  apply (H echo_env o_plain 10%nat v o_plain_held echo_sorts); [| | | | | | | exact E].
  - apply nodup_ok; vm_compute; reflexivity.
  - apply (tidy_ok _ m_zones _ o_plain_visited); vm_compute; reflexivity.
  - apply one_key_ok; vm_compute; reflexivity.
  - apply one_sig_ok; vm_compute; reflexivity.
  - apply no_nsec3; vm_compute; reflexivity.
  - apply exact_ok; [exact o_plain_held | vm_compute; reflexivity].
  - apply not_max; vm_compute; reflexivity.
Qed.

(** ** x.a. before and after its address has changed *)
Definition m_new : RR := RR_A {| a_name := bs "x.a."; a_addr := [127; 0; 0; 2] |}.
Definition m_x' : list RR := o_zones ++ [m_new; o_sig "x.a." 1 2 "a." [m_new]].
Lemma m_x'_held : Forall Held m_x'.
Proof. unfold m_x', m_new. o_held_all. Qed.
Lemma m_x'_visited z : In z m_zones -> Visited echo_env m_x' z.
Proof.
  m_visit. apply (visit echo_env m_x' m_x'_held (bs ".") (o_rrsig "a." 43 1 "." [w_ds "a."]));
    [exact (Vi_root _ _) | apply in_zone_rrsigs; split; [do 3 right; left; reflexivity | split; [reflexivity | discriminate]] | vm_compute; reflexivity | reflexivity].
Qed.
Lemma versions_refuted : ~ (forall e a b fa va fb vb, Forall Held a -> Forall Held b -> SortsNeeds e -> NoDup a -> NoDup b -> Tidy e a -> Tidy e b ->
  OneKey (merged a b) -> OneKeySig (merged a b) -> TwoParams e (merged a b) -> OneZone e (merged a b) ->
  (forall s, In (RR_RRSig s) (merged a b) -> ~ EmptyMaxLabels (merged a b) s) ->
  verify_rr_stream e false fa a = Ok va -> verify_rr_stream e false fb b = Ok vb ->
  N.max (vr_valid_from va) (vr_valid_from vb) < N.min (vr_expires va) (vr_expires vb) ->
  exists fuel v, verify_rr_stream e false fuel (merged a b) = Ok v).
Proof.
  intros H. assert (E : exists v, verify_rr_stream echo_env false 10 o_plain = Ok v /\ vr_valid_from v = 1000000000 /\ vr_expires v = 2000000000) by (eexists; split; vm_compute; auto).
  assert (E' : exists v, verify_rr_stream echo_env false 10 m_x' = Ok v /\ vr_valid_from v = 1000000000 /\ vr_expires v = 2000000000) by (eexists; split; vm_compute; auto).
  destruct E as (v & E & E1 & E2), E' as (v' & E' & E1' & E2').
  apply (turned_down echo_env (merged o_plain m_x') 10); [vm_compute; reflexivity |].
  apply (H echo_env o_plain m_x' 10%nat v 10%nat v' o_plain_held m_x'_held echo_sorts); [| | | | | | | | | exact E | exact E' | rewrite E1, E2, E1', E2'; reflexivity].
  - apply nodup_ok; vm_compute; reflexivity.
  - apply nodup_ok; vm_compute; reflexivity.
  - apply (tidy_ok _ m_zones _ o_plain_visited); vm_compute; reflexivity.
  - apply (tidy_ok _ m_zones _ m_x'_visited); vm_compute; reflexivity.
  - apply one_key_ok; vm_compute; reflexivity.
  - apply one_sig_ok; vm_compute; reflexivity.
  - apply no_nsec3; vm_compute; reflexivity.
  - apply exact_ok; [| vm_compute; reflexivity].
    pose proof o_plain_held as Q. pose proof m_x'_held as Q'. rewrite Forall_forall in *. intros r Hr. apply in_merged in Hr as [Hr | Hr]; auto.
  - apply not_max; vm_compute; reflexivity.
Qed.

(** ** A signature of the zone b., of which only the second list has the keys *)
Definition m_stray : list RR := o_plain ++ [w_sig "c.b." 1 2 "b."].
Definition m_b : list RR :=
  [w_key "."; o_sig "." 48 0 "." [w_key "."]; w_ds "b."; o_sig "b." 43 1 "." [w_ds "b."]; w_key "b."; o_sig "b." 48 1 "b." [w_key "b."];
   w_a "x.b."; o_sig "x.b." 1 2 "b." [w_a "x.b."]].
Lemma m_stray_held : Forall Held m_stray.
Proof. unfold m_stray, o_plain. rewrite <- app_assoc. cbn [app]. unfold w_sig. o_held_all. Qed.
Lemma m_b_held : Forall Held m_b.
Proof. unfold m_b. o_held_all. Qed.
Lemma m_b_visited z : In z [bs "."; bs "b."] -> Visited echo_env m_b z.
Proof.
  m_visit. apply (visit echo_env m_b m_b_held (bs ".") (o_rrsig "b." 43 1 "." [w_ds "b."]));
    [exact (Vi_root _ _) | apply in_zone_rrsigs; split; [do 3 right; left; reflexivity | split; [reflexivity | discriminate]] | vm_compute; reflexivity | reflexivity].
Qed.
Lemma stray_refuted : ~ (forall e a b fa va fb vb, Forall Held a -> Forall Held b -> SortsNeeds e -> NoDup a -> NoDup b -> NothingMore a b -> NothingMore b a -> Tidy e b ->
  OneKey (merged a b) -> OneKeySig (merged a b) -> TwoParams e (merged a b) -> OneZone e (merged a b) ->
  (forall s, In (RR_RRSig s) (merged a b) -> ~ EmptyMaxLabels (merged a b) s) ->
  verify_rr_stream e false fa a = Ok va -> verify_rr_stream e false fb b = Ok vb ->
  N.max (vr_valid_from va) (vr_valid_from vb) < N.min (vr_expires va) (vr_expires vb) ->
  exists fuel v, verify_rr_stream e false fuel (merged a b) = Ok v).
Proof.
  intros H. assert (E : exists v, verify_rr_stream echo_env false 10 m_stray = Ok v /\ vr_valid_from v = 1000000000 /\ vr_expires v = 2000000000) by (eexists; split; vm_compute; auto).
  assert (E' : exists v, verify_rr_stream echo_env false 10 m_b = Ok v /\ vr_valid_from v = 1000000000 /\ vr_expires v = 2000000000) by (eexists; split; vm_compute; auto).
  destruct E as (v & E & E1 & E2), E' as (v' & E' & E1' & E2').
  apply (turned_down echo_env (merged m_stray m_b) 10); [vm_compute; reflexivity |].
  apply (H echo_env m_stray m_b 10%nat v 10%nat v' m_stray_held m_b_held echo_sorts); [| | | | | | | | | | exact E | exact E' | rewrite E1, E2, E1', E2'; reflexivity].
  - apply nodup_ok; vm_compute; reflexivity.
  - apply nodup_ok; vm_compute; reflexivity.
  - apply nothing_more_ok; vm_compute; reflexivity.
  - apply nothing_more_ok; vm_compute; reflexivity.
  - apply (tidy_ok _ [bs "."; bs "b."] _ m_b_visited); vm_compute; reflexivity.
  - apply one_key_ok; vm_compute; reflexivity.
  - apply one_sig_ok; vm_compute; reflexivity.
  - apply no_nsec3; vm_compute; reflexivity.
  - apply exact_ok; [| vm_compute; reflexivity].
    pose proof m_stray_held as Q. pose proof m_b_held as Q'. rewrite Forall_forall in *. intros r Hr. apply in_merged in Hr as [Hr | Hr]; auto.
  - apply not_max; vm_compute; reflexivity.
Qed.

(** ** Three sets of NSEC3 parameters when taken together *)
Definition m_z : list RR :=
  w_root ++ w_zone "a." 1 ++ [w_a "z.a."; w_sig "z.a." 1 2 "a."; w_nsec3 hash_u 1; w_nsec3_sig hash_u; w_nsec3 hash_v 2; w_nsec3_sig hash_v].
Definition m_x : list RR := w_root ++ w_zone "a." 1 ++ [w_a "x.a."; w_sig "x.a." 1 1 "a."; w_nsec3 hash_0 3; w_nsec3_sig hash_0].
Ltac n3_held_all := cbn [app]; repeat (apply Forall_cons; [n3_held |]); apply Forall_nil.
Lemma m_z_held : Forall Held m_z.
Proof. unfold m_z, w_root, w_zone. n3_held_all. Qed.
Lemma m_x_held : Forall Held m_x.
Proof. unfold m_x, w_root, w_zone. n3_held_all. Qed.
Lemma m_z_visited z : In z m_zones -> Visited n3_env m_z z.
Proof.
  m_visit. apply (visit n3_env m_z m_z_held (bs ".") (w_rrsig "a." 43 1 "."));
    [exact (Vi_root _ _) | apply in_zone_rrsigs; split; [do 3 right; left; reflexivity | split; [reflexivity | discriminate]] | vm_compute; reflexivity | reflexivity].
Qed.
Lemma m_x_visited z : In z m_zones -> Visited n3_env m_x z.
Proof.
  m_visit. apply (visit n3_env m_x m_x_held (bs ".") (w_rrsig "a." 43 1 "."));
    [exact (Vi_root _ _) | apply in_zone_rrsigs; split; [do 3 right; left; reflexivity | split; [reflexivity | discriminate]] | vm_compute; reflexivity | reflexivity].
Qed.
Lemma params_refuted : ~ (forall e a b fa va fb vb, Forall Held a -> Forall Held b -> SortsNeeds e -> NoDup a -> NoDup b -> NothingMore a b -> NothingMore b a -> Tidy e a -> Tidy e b ->
  OneKey (merged a b) -> OneKeySig (merged a b) -> TwoParams e a -> TwoParams e b -> OneZone e (merged a b) ->
  (forall s, In (RR_RRSig s) (merged a b) -> ~ EmptyMaxLabels (merged a b) s) ->
  verify_rr_stream e false fa a = Ok va -> verify_rr_stream e false fb b = Ok vb ->
  N.max (vr_valid_from va) (vr_valid_from vb) < N.min (vr_expires va) (vr_expires vb) ->
  exists fuel v, verify_rr_stream e false fuel (merged a b) = Ok v).
Proof.
  intros H. assert (E : exists v, verify_rr_stream n3_env false 10 m_z = Ok v /\ vr_valid_from v = 1000000000 /\ vr_expires v = 2000000000) by (eexists; split; vm_compute; auto).
  assert (E' : exists v, verify_rr_stream n3_env false 10 m_x = Ok v /\ vr_valid_from v = 1000000000 /\ vr_expires v = 2000000000) by (eexists; split; vm_compute; auto).
  destruct E as (v & E & E1 & E2), E' as (v' & E' & E1' & E2').
  apply (turned_down n3_env (merged m_z m_x) 10); [vm_compute; reflexivity |].
  apply (H n3_env m_z m_x 10%nat v 10%nat v' m_z_held m_x_held n3_sorts); [| | | | | | | | | | | | exact E | exact E' | rewrite E1, E2, E1', E2'; reflexivity].
  - apply nodup_ok; vm_compute; reflexivity.
  - apply nodup_ok; vm_compute; reflexivity.
  - apply nothing_more_ok; vm_compute; reflexivity.
  - apply nothing_more_ok; vm_compute; reflexivity.
  - apply (tidy_ok _ m_zones _ m_z_visited); vm_compute; reflexivity.
  - apply (tidy_ok _ m_zones _ m_x_visited); vm_compute; reflexivity.
  - apply one_key_ok; vm_compute; reflexivity.
  - apply one_sig_ok; vm_compute; reflexivity.
  - apply (params_ok _ [1; 2] (1, [171]) (2, [171])); [vm_compute; reflexivity | intros n [<- | [<- | []]]; auto].
  - apply (params_ok _ [3] (3, [171]) (3, [171])); [vm_compute; reflexivity | intros n [<- | []]; auto].
  - apply (one_signer_ok (merged m_z m_x) (bs "a.")); [| vm_compute; reflexivity].
    pose proof m_z_held as Q. pose proof m_x_held as Q'. rewrite Forall_forall in *. intros r Hr. apply in_merged in Hr as [Hr | Hr]; auto.
  - apply not_max; vm_compute; reflexivity.
Qed.
