(** The worlds themselves. *)
From Verif Require Import Base BaseP NameM NameSpec NameP WireM RRM SerM ValM RecSpec RecP2 SignedP ValSpec ValP ValP2 ValP3 ValP4 ValW OrderW HeldP QueryM QuerySpec QueryP QueryP2 QueryP3 QueryP4 QueryW AcceptSpec AcceptP2 AcceptW SecW LiveSpec LiveP LiveP2 LiveP3 LiveW.
From Coq Require Import String Permutation Lia PeanoNat.
Local Open Scope N_scope.

Definition l_key (z : string) : dnskey := {| dk_name := bs z; dk_flags := 257; dk_protocol := 3; dk_alg := 8; dk_pubkey := [1; 3; 74; 90] |}.
Definition l_dsrec (z : string) : ds := {| ds_name := bs z; ds_key_tag := 20326; ds_alg := 8; ds_digest_type := 2; ds_digest := root_digest_20326 |}.
Definition l_root : zone :=
  {| zn_name := bs "."; zn_keys := [l_key "."]; zn_ksigs := [o_rrsig "." 48 0 "." [w_key "."]]; zn_ds := []; zn_dsigs := [] |}.
Definition l_zone (parent z : string) (labels : N) : zone :=
  {| zn_name := bs z; zn_keys := [l_key z]; zn_ksigs := [o_rrsig z 48 labels z [w_key z]];
     zn_ds := [l_dsrec z]; zn_dsigs := [o_rrsig z 43 labels parent [w_ds z]] |}.

(** The wildcard answer of OrderW. *)
Definition l_wild : list rset :=
  [{| an_name := bs "x.a."; an_ty := 1; an_recs := [w_a "x.a."]; an_sigs := [o_rrsig "x.a." 1 1 "a." [w_a "x.a."]] |};
   {| an_name := bs "c.a."; an_ty := 47; an_recs := [o_nsec]; an_sigs := [o_rrsig "c.a." 47 2 "a." [o_nsec]] |}].
Definition l_small : list zone := [l_root; l_zone "." "a." 1].
(** Six zones. *)
Definition l_deep : list zone :=
  [l_root; l_zone "." "a." 1; l_zone "a." "b.a." 2; l_zone "b.a." "c.b.a." 3; l_zone "c.b.a." "d.c.b.a." 4; l_zone "d.c.b.a." "e.d.c.b.a." 5].
Definition l_deep_answer : list rset :=
  [{| an_name := bs "x.e.d.c.b.a."; an_ty := 1; an_recs := [w_a "x.e.d.c.b.a."]; an_sigs := [o_rrsig "x.e.d.c.b.a." 1 6 "e.d.c.b.a." [w_a "x.e.d.c.b.a."]] |}].
(** The DNSKEYs of a. signed with the zone signing key as well. *)
Definition l_zsk : dnskey := {| dk_name := bs "a."; dk_flags := 256; dk_protocol := 3; dk_alg := 8; dk_pubkey := [1; 3; 74; 92] |}.
Definition l_by_zsk : rrsig :=
  let f sg := {| rs_name := bs "a."; rs_ty := 48; rs_alg := 8; rs_labels := 1; rs_orig_ttl := 3600; rs_expiration := 2000000000; rs_inception := 1000000000;
    rs_key_tag := 20327; rs_key_name := bs "a."; rs_signature := sg |} in
  f (match signed_records false (f []) [RR_DnsKey l_zsk; w_key "a."] with Ok m => sig_prefix (f []) ++ m | _ => [] end).
Definition l_two_keys : zone :=
  {| zn_name := bs "a."; zn_keys := [l_zsk; l_key "a."]; zn_ksigs := [l_by_zsk; o_rrsig "a." 48 1 "a." [RR_DnsKey l_zsk; w_key "a."]];
     zn_ds := [l_dsrec "a."]; zn_dsigs := [o_rrsig "a." 43 1 "." [w_ds "a."]] |}.
Definition l_rolled : list zone := [l_root; l_two_keys].
Definition l_plain : list rset :=
  [{| an_name := bs "x.a."; an_ty := 1; an_recs := [w_a "x.a."]; an_sigs := [o_rrsig "x.a." 1 2 "a." [w_a "x.a."]] |}].

Ltac l_unf := unfold l_key, l_dsrec, l_by_zsk, l_zsk, o_rrsig, w_rrsig, w_key, w_ds, w_a, o_nsec, w_nsec.
Ltac l_wf := split; [l_unf; cbn [typed_rr];
    repeat match goal with |- _ /\ _ => split | |- is_mask _ => split; [vm_compute; reflexivity |] | |- is_bytes _ => bytes_in_range | |- proper_name _ => x_name | |- _ => in_range end
  | split; [l_unf; cbn [fits_rr]; first [exact I | vm_compute; discriminate] | exact I]].
Ltac l_wf_all := unfold world_records, answer_records, key_records, ds_records; cbn [flat_map map app an_recs an_sigs zn_keys zn_ksigs zn_ds zn_dsigs];
  repeat (apply Forall_cons; [l_wf|]); apply Forall_nil.
Lemma small_wf : Forall wf_rr (world_records l_small l_wild).
Proof. unfold l_small, l_wild, l_root, l_zone. l_wf_all. Qed.
Lemma deep_wf : Forall wf_rr (world_records l_deep l_deep_answer).
Proof. unfold l_deep, l_deep_answer, l_root, l_zone. l_wf_all. Qed.
Lemma rolled_wf : Forall wf_rr (world_records l_rolled l_plain).
Proof. unfold l_rolled, l_plain, l_root, l_two_keys. l_wf_all. Qed.

Lemma nodup_b {A} (f : A -> list N) l : (fix go l := match l with [] => true | x :: t => negb (existsb (fun y => bytes_eqb (f x) (f y)) t) && go t end) l = true -> NoDup (map f l).
Proof.
  induction l as [|x l IH]; intros H; [constructor|]. bools. cbn [map]. constructor; [|auto]. intros I. apply in_map_iff in I as (y & E & Iy).
  assert (X : existsb (fun y => bytes_eqb (f x) (f y)) l = true) by (apply existsb_exists; exists y; split; [exact Iy|apply bytes_eqb_eq; auto]). congruence.
Qed.
Definition firstb (e : env) (z : zone) : bool :=
  match zn_ksigs z with s :: _ => passes e s (validated_dnskeys e (vouching z) (zn_keys z)) (map RR_DnsKey (zn_keys z)) | [] => false end.
Lemma first_vouched e zones answers : Forall wf_rr (world_records zones answers) -> forallb (firstb e) zones = true -> forall z, In z zones -> FirstVouched e z.
Proof.
  intros W H z Iz. rewrite forallb_forall in H. specialize (H z Iz). unfold firstb in H. destruct (zn_ksigs z) as [|s more] eqn:E; [discriminate H|].
  exists [], s, more. split; [exact E|]. split; [|constructor]. apply passes_vouched; [|eapply keys_held; eassumption|exact H].
  eapply rec_held; [exact W|]. apply in_app_iff. right. apply in_app_iff. left. apply in_flat_map. exists z. split; [exact Iz|]. apply in_app_iff. right. rewrite E. left. reflexivity.
Qed.
Lemma full_labels s ls : rs_ty s <> 46 -> LabelsOf (rs_name s) ls -> rs_labels s = N.of_nat (List.length ls) -> Fits s.
Proof. intros T L E. split; [exact T|]. right. right. exists ls. auto. Qed.
Lemma not_wild n ls pre l suf k : LabelsOf n ls -> LabelsOf n (pre ++ l :: suf) -> k = N.of_nat (List.length ls) -> N.of_nat (List.length suf) = k -> False.
Proof. intros A B -> E. rewrite (labelsof_inj _ _ _ A B) in E. rewrite app_length in E. cbn [List.length] in E. lia. Qed.
Ltac labels := split; [reflexivity|]; split; [|discriminate]; unfold label_ok, label_char;
  repeat match goal with |- Forall _ (_ :: _) => apply Forall_cons | |- Forall _ [] => apply Forall_nil | |- _ /\ _ => split end; first [discriminate | lia | cbn; lia].
Lemma xa_labels : LabelsOf (bs "x.a.") [[120]; [97]].
Proof. labels. Qed.
Lemma xe_labels : LabelsOf (bs "x.e.d.c.b.a.") [[120]; [101]; [100]; [99]; [98]; [97]].
Proof. labels. Qed.

Lemma small_signed : WellSigned echo_env l_small l_wild (FirstVouched echo_env).
Proof.
  apply world_signed; [exact small_wf|vm_compute; reflexivity|apply nodup_b; vm_compute; reflexivity| | | |].
  - unfold l_wild. cbn [map an_name an_ty]. repeat constructor; cbn; intuition discriminate.
  - apply (first_vouched _ _ _ small_wf). vm_compute. reflexivity.
  - intros a [<-|[<-|[]]]; (apply Forall_cons; [|apply Forall_nil]); (split; [vm_compute; discriminate|]).
    + right. right. exists [[120]; [97]]. split; [exact xa_labels|]. right. split; [vm_compute; discriminate|vm_compute; reflexivity].
    + right. left. reflexivity.
  - intros a s pre l suf [<-|[<-|[]]] Is T L E; [|exfalso; apply T; reflexivity]. destruct Is as [<-|[]]. cbn [an_name] in L. pose proof (labelsof_inj _ _ _ L xa_labels) as X.
    cbn [rs_labels o_rrsig w_rrsig] in E. destruct pre as [|x pre].
    + injection X as -> ->. eexists. exists (bs "c."). split; [right; left; reflexivity|]. split; [reflexivity|]. left. eexists. split; [left; reflexivity|].
      split; cbn [ns_name ns_next]; (apply nsec_ord_names; [vm_compute; reflexivity .. |]; vm_compute; reflexivity).
    + exfalso. apply (f_equal (@List.length _)) in X. cbn in X. rewrite app_length in X. cbn in X. lia.
Qed.
Lemma deep_signed : WellSigned echo_env l_deep l_deep_answer (FirstVouched echo_env).
Proof.
  apply world_signed; [exact deep_wf|vm_compute; reflexivity|apply nodup_b; vm_compute; reflexivity| | | |].
  - repeat constructor. intros [].
  - apply (first_vouched _ _ _ deep_wf). vm_compute. reflexivity.
  - intros a [<-|[]]. apply Forall_cons; [|apply Forall_nil]. eapply full_labels; [vm_compute; discriminate|exact xe_labels|reflexivity].
  - intros a s pre l suf [<-|[]] [<-|[]] _ L E. exfalso. exact (not_wild _ _ _ _ _ _ xe_labels L eq_refl E).
Qed.
Lemma rolled_signed : WellSigned echo_env l_rolled l_plain (SomeVouched echo_env).
Proof.
  apply world_signed; [exact rolled_wf|vm_compute; reflexivity|apply nodup_b; vm_compute; reflexivity| | | |].
  - repeat constructor. intros [].
  - assert (HK := keys_held l_rolled l_plain rolled_wf). assert (HB := keys_bytes l_rolled l_plain rolled_wf).
    assert (HS : forall z s, In z l_rolled -> In s (zn_ksigs z) -> Held (RR_RRSig s)).
    { intros z s Iz Is. eapply rec_held; [exact rolled_wf|]. apply in_app_iff. right. apply in_app_iff. left. apply in_flat_map. exists z. split; [exact Iz|]. apply in_app_iff. right. apply in_map. exact Is. }
    intros z Iz. split.
    + destruct (in_inv Iz) as [<-|[<-|[]]]; (eexists; split; [|apply passes_vouched; [eapply HS; [exact Iz|]|apply HK; exact Iz|]]);
        [left; reflexivity|left; reflexivity|vm_compute; reflexivity|right; left; reflexivity|right; left; reflexivity|vm_compute; reflexivity].
    + apply Forall_forall. intros s Is. apply passes_valid; [exact (HS _ _ Iz Is)|exact (HK _ Iz)|exact (HB _ Iz)|].
      assert (C : forallb (fun z => forallb (fun s => passes echo_env s (zn_keys z) (map RR_DnsKey (zn_keys z))) (zn_ksigs z)) l_rolled = true) by (vm_compute; reflexivity).
      rewrite forallb_forall in C. specialize (C z Iz). cbn beta in C. rewrite forallb_forall in C. exact (C s Is).
  - intros a [<-|[]]. apply Forall_cons; [|apply Forall_nil]. eapply full_labels; [vm_compute; discriminate|exact xa_labels|reflexivity].
  - intros a s pre l suf [<-|[]] [<-|[]] _ L E. exfalso. exact (not_wild _ _ _ _ _ _ xa_labels L eq_refl E).
Qed.

(** The resolvers. *)
Lemma world_answers e zones answers n ty Vouched : WellSigned e zones answers Vouched -> ServesJust zones answers n ty (l_data zones answers n ty) -> ty <> 43 /\ ty <> 48 ->
  Forall wf_rr (world_records zones answers) -> (forall m t, incl (map fst (l_data zones answers n ty m t)) (world_records zones answers)) ->
  Forall (fun q => let m := l_resp zones answers n ty (fst q) (snd q) in
    bytes_ok m = true /\ (len m <=? 65535) = true /\ items_of false m = Some (l_data zones answers n ty (fst q) (snd q))) (qlist zones n ty) ->
  Answers (l_data zones answers n ty) false n ty (l_resp zones answers n ty) /\
  (forall m t rt, Asked (l_data zones answers n ty) n ty m t -> In rt (l_data zones answers n ty m t) -> wf_rr (fst rt)).
Proof.
  intros W SV NT WF IN F. split.
  - intros m t A. apply (tree_asked e zones answers n ty _ _ Vouched W SV NT (Permutation_refl _)) in A.
    assert (I : In (m, t) (qlist zones n ty)).
    { remember (m, t) as q. destruct A as [|z Iz|z Iz R]; [left; reflexivity| |]; right; apply in_app_iff; [left|right].
      - apply (in_map (fun z => (zn_name z, 48))). exact Iz.
      - apply (in_map (fun z => (zn_name z, 43))). apply filter_In. split; [exact Iz|]. rewrite <- rootb_iff in R. destruct (rootb z); [exfalso; auto|reflexivity]. }
    rewrite Forall_forall in F. destruct (F _ I) as (B & L & E). cbn [fst snd] in *. apply N.leb_le in L. apply is_bytes_ok in B.
    split; [exact B|]. split; [exact L|]. split; [apply (items_response false); assumption|discriminate].
  - intros m t rt _ I. rewrite Forall_forall in WF. apply WF, (IN m t), in_map. exact I.
Qed.
Lemma data_incl zones answers n ty m t : incl (map fst (l_data zones answers n ty m t)) (world_records zones answers).
Proof.
  intros r I. unfold l_data in I. rewrite map_map in I. cbn [fst] in I. rewrite map_id in I.
  assert (J : In r (lookup zones answers n ty m t)) by (apply in_app_iff in I as [I|I]; apply filter_In in I; apply I). clear I. unfold lookup in J.
  apply in_app_iff. destruct (_ && _); [left; exact J|right]. destruct (find _ zones) as [z|] eqn:E; [|contradiction]. apply find_some in E as [Iz _].
  apply in_app_iff. destruct (t =? 48); [left; apply in_flat_map; exists z; auto|]. destruct (t =? 43); [|contradiction]. right. apply in_flat_map. exists z. auto.
Qed.
Ltac answers_of W wf := refine (world_answers _ _ _ _ _ _ W _ _ wf (data_incl _ _ _ _) _);
  [|split; discriminate|unfold qlist; repeat (apply Forall_cons; [cbn zeta; split; [vm_compute; reflexivity|split; vm_compute; reflexivity]|]); apply Forall_nil].

Lemma small_just : ServesJust l_small l_wild (bs "x.a.") 1 (l_data l_small l_wild (bs "x.a.") 1).
Proof. split; [vm_compute; reflexivity|]. intros z [<-|[<-|[]]]; (split; [|intros R]); vm_compute; reflexivity. Qed.
Lemma small_serves : Serves l_small l_wild (bs "x.a.") 1 (l_data l_small l_wild (bs "x.a.") 1).
Proof. exact (serves_just _ _ _ _ _ small_just). Qed.
Lemma deep_just : ServesJust l_deep l_deep_answer (bs "x.e.d.c.b.a.") 1 (l_data l_deep l_deep_answer (bs "x.e.d.c.b.a.") 1).
Proof. split; [vm_compute; reflexivity|]. intros z [<-|[<-|[<-|[<-|[<-|[<-|[]]]]]]]; (split; [|intros R]); vm_compute; reflexivity. Qed.
Lemma deep_serves : Serves l_deep l_deep_answer (bs "x.e.d.c.b.a.") 1 (l_data l_deep l_deep_answer (bs "x.e.d.c.b.a.") 1).
Proof. exact (serves_just _ _ _ _ _ deep_just). Qed.
Lemma rolled_just : ServesJust l_rolled l_plain (bs "x.a.") 1 (l_data l_rolled l_plain (bs "x.a.") 1).
Proof. split; [vm_compute; reflexivity|]. intros z [<-|[<-|[]]]; (split; [|intros R]); vm_compute; reflexivity. Qed.
Lemma rolled_serves : Serves l_rolled l_plain (bs "x.a.") 1 (l_data l_rolled l_plain (bs "x.a.") 1).
Proof. exact (serves_just _ _ _ _ _ rolled_just). Qed.
Lemma small_answers : Answers (l_data l_small l_wild (bs "x.a.") 1) false (bs "x.a.") 1 (l_resp l_small l_wild (bs "x.a.") 1) /\
  (forall m t rt, Asked (l_data l_small l_wild (bs "x.a.") 1) (bs "x.a.") 1 m t -> In rt (l_data l_small l_wild (bs "x.a.") 1 m t) -> wf_rr (fst rt)).
Proof. answers_of small_signed small_wf. exact small_just. Qed.
Lemma deep_answers : Answers (l_data l_deep l_deep_answer (bs "x.e.d.c.b.a.") 1) false (bs "x.e.d.c.b.a.") 1 (l_resp l_deep l_deep_answer (bs "x.e.d.c.b.a.") 1) /\
  (forall m t rt, Asked (l_data l_deep l_deep_answer (bs "x.e.d.c.b.a.") 1) (bs "x.e.d.c.b.a.") 1 m t -> In rt (l_data l_deep l_deep_answer (bs "x.e.d.c.b.a.") 1 m t) -> wf_rr (fst rt)).
Proof. answers_of deep_signed deep_wf. exact deep_just. Qed.
Lemma rolled_answers : Answers (l_data l_rolled l_plain (bs "x.a.") 1) false (bs "x.a.") 1 (l_resp l_rolled l_plain (bs "x.a.") 1) /\
  (forall m t rt, Asked (l_data l_rolled l_plain (bs "x.a.") 1) (bs "x.a.") 1 m t -> In rt (l_data l_rolled l_plain (bs "x.a.") 1 m t) -> wf_rr (fst rt)).
Proof. answers_of rolled_signed rolled_wf. exact rolled_just. Qed.

(** ** Refutations *)
Lemma sent_bound dbg n ty segs : name_try_from n = Some n -> ty < 65536 -> is_bytes (List.concat segs) -> (List.length (snd (build_proof dbg 10 n ty segs)) <= 10)%nat.
Proof.
  intros V T B. unfold build_proof. destruct (builder_new n ty) as [[b0 q0]| | |] eqn:N0; try (cbn; lia).
  destruct (drive dbg 10 b0 segs _) as [o sent'] eqn:D. destruct (drive_sound _ _ _ _ _ _ _ B D [] b0 (Driven_nil _ _)) as (tr & b' & rest & D' & _ & F & _ & _ & S).
  cbn [snd app] in *. apply driven_calls in D'. pose proof (handed_bound _ _ _ _ _ _ _ N0 D' F) as L. rewrite S. cbn [List.length] in *. rewrite map_length. lia.
Qed.
Lemma f2_length {A B} (R : A -> B -> Prop) l m : Forall2 R l m -> List.length l = List.length m.
Proof. induction 1; cbn [List.length]; congruence. Qed.
Lemma six_zones_refuted : ~ (forall e dbg zones answers n ty data resp, name_try_from n = Some n -> ty < 65536 -> ty <> 43 /\ ty <> 48 -> SortsNeeds e ->
  WellSigned e zones answers (FirstVouched e) -> Serves zones answers n ty data -> Answers data dbg n ty resp ->
  (forall m t rt, Asked data n ty m t -> In rt (data m t) -> wf_rr (fst rt)) -> Works e dbg zones answers n ty resp).
Proof.
  intros H. destruct (H echo_env false l_deep l_deep_answer (bs "x.e.d.c.b.a.") 1 _ _ ltac:(vm_compute; reflexivity) ltac:(vm_compute; reflexivity) ltac:(split; discriminate) echo_sorts deep_signed deep_serves (proj1 deep_answers) (proj2 deep_answers))
    as (qs & sent & P & Q & B).
  destruct (B [flat_map frame (map (fun q => l_resp l_deep l_deep_answer (bs "x.e.d.c.b.a.") 1 (fst q) (snd q)) qs)] []) as (proof & ttl & E & _); [cbn [List.concat]; rewrite !app_nil_r; reflexivity|].
  pose proof (sent_bound false (bs "x.e.d.c.b.a.") 1 [flat_map frame (map (fun q => l_resp l_deep l_deep_answer (bs "x.e.d.c.b.a.") 1 (fst q) (snd q)) qs)] ltac:(vm_compute; reflexivity) ltac:(vm_compute; reflexivity)) as L.
  rewrite E in L. cbn [snd] in L. apply f2_length in Q. rewrite <- Q, (Permutation_length P) in L.
  assert (X : (12 <= 10)%nat); [|lia]. apply L. cbn [List.concat]. rewrite app_nil_r. apply Forall_forall. intros c Ic. apply in_flat_map in Ic as (m & Im & Ic). apply in_map_iff in Im as (q & <- & Iq).
  assert (A : is_bytes (l_resp l_deep l_deep_answer (bs "x.e.d.c.b.a.") 1 (fst q) (snd q)) /\ length_of (l_resp l_deep l_deep_answer (bs "x.e.d.c.b.a.") 1 (fst q) (snd q)) <= 65535).
  { assert (A : Asked (l_data l_deep l_deep_answer (bs "x.e.d.c.b.a.") 1) (bs "x.e.d.c.b.a.") 1 (fst q) (snd q)); [|apply (proj1 deep_answers) in A; tauto].
    apply (Permutation_in _ P) in Iq as [<-|I]; [constructor|]. apply in_flat_map in I as (k & Ik & I). apply in_map_iff in I as (t & <- & It). cbn [fst snd].
    destruct (tree_signers _ _ _ _ _ _ _ _ deep_signed deep_just ltac:(split; discriminate) (Permutation_refl _)) as [_ HK]. apply HK in Ik as (m & t' & A & S). exact (Asked_key _ _ _ _ _ _ _ A S It). }
  destruct A as [A1 A2]. apply in_app_iff in Ic as [Ic|Ic]; [|unfold is_bytes in A1; rewrite Forall_forall in A1; auto].
  clear A1. revert A2 Ic. generalize (length_of (l_resp l_deep l_deep_answer (bs "x.e.d.c.b.a.") 1 (fst q) (snd q))) as k. intros k A2 Ic.
  destruct Ic as [<-|[<-|[]]]; [apply N.div_lt_upper_bound; [discriminate|lia]|apply N.mod_lt; discriminate].
Qed.

(** All orders. *)
Fixpoint inserts {A} (x : A) (l : list A) : list (list A) :=
  match l with [] => [[x]] | y :: t => (x :: l) :: map (cons y) (inserts x t) end.
Fixpoint perms {A} (l : list A) : list (list A) := match l with [] => [[]] | x :: t => flat_map (inserts x) (perms t) end.
Lemma in_inserts {A} (x : A) a b : In (a ++ x :: b) (inserts x (a ++ b)).
Proof. induction a as [|y a IH]; cbn [app]; [destruct b; left; reflexivity|]. cbn [inserts]. right. apply in_map. exact IH. Qed.
Lemma in_perms {A} (l : list A) : forall q, Permutation q l -> In q (perms l).
Proof.
  induction l as [|x l IH]; intros q P; [apply Permutation_sym, Permutation_nil in P as ->; left; reflexivity|].
  destruct (in_split x q) as (a & b & ->); [apply (Permutation_in _ (Permutation_sym P)); left; reflexivity|].
  cbn [perms]. apply in_flat_map. exists (a ++ b). split; [|apply in_inserts]. apply IH. apply (Permutation_cons_inv (a := x)). rewrite <- P. apply Permutation_middle.
Qed.
Definition fails (resp : list N -> N -> list N) (n : list N) (ty : N) (qs : list (list N * N)) : bool :=
  match build_proof false 10 n ty [flat_map frame (map (fun q => resp (fst q) (snd q)) qs)] with
  | (Ok (proof, _), _) => match parse_rr_stream false proof with Ok inp => match verify_rr_stream echo_env false 10 inp with Err _ => true | _ => false end | _ => true end
  | _ => true
  end.
Lemma works_fails zones answers n ty resp : Works echo_env false zones answers n ty resp ->
  forallb (fails resp n ty) (perms (questions n ty (map zn_name zones))) = true -> False.
Proof.
  intros (qs & sent & P & Q & B) C.
  destruct (B [flat_map frame (map (fun q => resp (fst q) (snd q)) qs)] []) as (proof & ttl & E & D); [cbn [List.concat]; rewrite !app_nil_r; reflexivity|].
  destruct (D false) as (inp & fuel & v & E1 & E2 & _).
  rewrite forallb_forall in C. specialize (C qs (in_perms _ _ P)). unfold fails in C. rewrite E, E1 in C.
  destruct (verify_rr_stream echo_env false 10 inp) as [|x| |] eqn:E3; try discriminate C.
  pose proof (verify_fuel _ _ _ _ _ _ E2 ltac:(discriminate) E3 ltac:(discriminate)) as X. discriminate X.
Qed.
Lemma key_order_refuted : ~ (forall e dbg zones answers n ty data resp, name_try_from n = Some n -> ty < 65536 -> ty <> 43 /\ ty <> 48 -> SortsNeeds e ->
  WellSigned e zones answers (SomeVouched e) -> Serves zones answers n ty data -> Answers data dbg n ty resp ->
  (forall m t rt, Asked data n ty m t -> In rt (data m t) -> wf_rr (fst rt)) -> (List.length zones <= 5)%nat -> Works e dbg zones answers n ty resp).
Proof.
  intros H. apply (works_fails l_rolled l_plain (bs "x.a.") 1 (l_resp l_rolled l_plain (bs "x.a.") 1)); [|vm_compute; reflexivity].
  apply (H echo_env false l_rolled l_plain (bs "x.a.") 1 (l_data l_rolled l_plain (bs "x.a.") 1)).
  - vm_compute. reflexivity.
  - vm_compute. reflexivity.
  - split; discriminate.
  - exact echo_sorts.
  - exact rolled_signed.
  - exact rolled_serves.
  - exact (proj1 rolled_answers).
  - exact (proj2 rolled_answers).
  - cbn [l_rolled List.length]. apply Nat.leb_le. reflexivity.
Qed.
