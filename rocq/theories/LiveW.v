(** Worlds for Prop_Live: zones, answers, and a resolver which has them. *)
From Verif Require Import Base BaseP NameM NameSpec NameP WireM RRM SerM ValM RecSpec RecP2 SignedP ValSpec ValP ValP2 ValP3 ValW OrderW HeldP QueryM QuerySpec QueryP QueryW AcceptSpec AcceptP2 SecW LiveSpec LiveP LiveP2 LiveP3.
From Coq Require Import String Permutation Lia.
Local Open Scope N_scope.

(** ** Checking a world *)
Definition passes (e : env) (s : rrsig) (keys : list dnskey) (rs : list RR) : bool :=
  match verify_rrsig e false s keys rs with Ok _ => true | _ => false end.
Lemma passes_valid e s keys rs : Held (RR_RRSig s) -> Forall Held rs -> Forall (fun k => is_bytes (dk_pubkey k)) keys ->
  passes e s keys rs = true -> ValidSig e (fun _ => True) keys s rs.
Proof.
  intros Hs Hr Hk H. unfold passes in H. destruct (verify_rrsig e false s keys rs) as [[]| | |] eqn:E; try discriminate H.
  apply verify_rrsig_spec in E; [|assumption ..]. destruct E as (T & k & msg & (pre & post & E & F & K) & S). split; [exact T|]. exists k, msg. split; [|exact S].
  exists pre, post. split; [exact E|]. split; [eapply Forall_impl; [|exact F]; tauto|]. auto.
Qed.
Lemma passes_vouched e s z : Held (RR_RRSig s) -> Forall Held (map RR_DnsKey (zn_keys z)) ->
  passes e s (validated_dnskeys e (vouching z) (zn_keys z)) (map RR_DnsKey (zn_keys z)) = true -> KeyVouched e z s.
Proof.
  intros Hs Hr H. unfold passes in H. destruct (verify_rrsig e false s _ _) as [[]| | |] eqn:E; try discriminate H.
  assert (Hk : Forall (fun k => is_bytes (dk_pubkey k) /\ is_u16 (dk_flags k)) (zn_keys z)).
  { apply Forall_forall. intros k I. rewrite Forall_forall in Hr. destruct (Hr (RR_DnsKey k) (in_map _ _ _ I)) as (A & B & C & D & F). auto. }
  apply verify_rrsig_spec in E; [|assumption|assumption|].
  - destruct E as (T & k & msg & F & S). split; [exact T|]. exists k, msg. split; [|exact S]. revert F. apply chosen_filter.
    intros x Ix. apply ds_matches_spec. rewrite Forall_forall in Hk. apply Hk. exact Ix.
  - apply Forall_forall. intros k I. apply filter_In in I as [I _]. rewrite Forall_forall in Hk. apply Hk. exact I.
Qed.

Definition setb (e : env) (p : zone) (n : list N) (ty : N) (rs : list RR) (s : rrsig) : bool :=
  bytes_eqb (rs_name s) n && (rs_ty s =? ty) && bytes_eqb (rs_key_name s) (zn_name p) && passes e s (zn_keys p) rs.
Definition rootb (z : zone) : bool := bytes_eqb (zn_name z) [46].
Definition zoneb (e : env) (zones : list zone) (z : zone) : bool :=
  forallb (fun k => bytes_eqb (dk_name k) (zn_name z)) (zn_keys z) &&
  forallb (fun s => bytes_eqb (rs_name s) (zn_name z) && (rs_ty s =? 48) && bytes_eqb (rs_key_name s) (zn_name z)) (zn_ksigs z) &&
  (if rootb z then match zn_ds z, zn_dsigs z with [], [] => true | _, _ => false end
   else forallb (fun d => bytes_eqb (ds_name d) (zn_name z)) (zn_ds z) &&
     match zn_ds z, zn_dsigs z with [], _ => false | _, [] => false | _, _ => true end &&
     existsb (fun p => ends_with (zn_name z) (zn_name p) && negb (bytes_eqb (zn_name p) (zn_name z)) &&
       forallb (setb e p (zn_name z) 43 (map RR_DS (zn_ds z))) (zn_dsigs z)) zones).
Definition answerb (e : env) (zones : list zone) (a : rset) : bool :=
  negb (existsb (N.eqb (an_ty a)) [43; 46; 48]) && forallb (fun r => bytes_eqb (rr_name r) (an_name a) && (rr_ty r =? an_ty a)) (an_recs a) &&
  match an_recs a, an_sigs a with [], _ => false | _, [] => false | _, _ => true end &&
  existsb (fun p => ends_with (an_name a) (zn_name p) && forallb (setb e p (an_name a) (an_ty a) (an_recs a)) (an_sigs a)) zones.
Definition usedb (zones : list zone) (answers : list rset) (z : zone) : bool :=
  existsb (fun a => existsb (fun s => bytes_eqb (rs_key_name s) (zn_name z)) (an_sigs a)) answers ||
  existsb (fun c => negb (bytes_eqb (zn_name c) (zn_name z)) && existsb (fun s => bytes_eqb (rs_key_name s) (zn_name z)) (zn_dsigs c)) zones.
Definition worldb (e : env) (zones : list zone) (answers : list rset) : bool :=
  existsb rootb zones && existsb (fun z => negb (rootb z)) zones && forallb (zoneb e zones) zones &&
  match answers with [] => false | _ => true end && forallb (answerb e zones) answers && forallb (usedb zones answers) zones &&
  forallb (fun a => forallb (fun r => match r with RR_NSec3 _ => false | _ => true end) (an_recs a)) answers &&
  forallb (fun a => forallb (fun b => resolve_time (rs_inception a) <? resolve_time (rs_expiration b)) (all_sigs zones answers)) (all_sigs zones answers).
Definition world_records (zones : list zone) (answers : list rset) : list RR :=
  answer_records answers ++ flat_map key_records zones ++ flat_map ds_records zones.

Ltac bools := repeat match goal with
  | H : _ && _ = true |- _ => apply andb_true_iff in H as [? ?]
  | H : bytes_eqb _ _ = true |- _ => apply bytes_eqb_eq in H
  | H : (_ =? _) = true |- _ => apply N.eqb_eq in H
  | H : (_ <? _) = true |- _ => apply N.ltb_lt in H
  | H : negb _ = true |- _ => apply negb_true_iff in H
  end.
Lemma bytes_neqb a b : bytes_eqb a b = false -> a <> b.
Proof. intros H ->. rewrite (proj2 (bytes_eqb_eq _ _) eq_refl) in H. discriminate H. Qed.

Section Check.
  Variable e : env.
  Variable zones : list zone.
  Variable answers : list rset.
  Hypothesis HW : Forall wf_rr (world_records zones answers).
  Hypothesis HB : worldb e zones answers = true.

  Lemma rec_held r : In r (world_records zones answers) -> Held r.
  Proof. intros I. apply wf_held. rewrite Forall_forall in HW. auto. Qed.
  Lemma keys_held z : In z zones -> Forall Held (map RR_DnsKey (zn_keys z)).
  Proof.
    intros Iz. apply Forall_forall. intros r I. apply rec_held. apply in_app_iff. right. apply in_app_iff. left. apply in_flat_map. exists z. split; [exact Iz|]. apply in_app_iff. auto.
  Qed.
  Lemma keys_bytes z : In z zones -> Forall (fun k => is_bytes (dk_pubkey k)) (zn_keys z).
  Proof.
    intros Iz. apply Forall_forall. intros k I. pose proof (keys_held z Iz) as H. rewrite Forall_forall in H. apply (H (RR_DnsKey k)). apply in_map. exact I.
  Qed.
  Lemma setb_ok p n ty rs s : In p zones -> (forall r, In r (RR_RRSig s :: rs) -> In r (world_records zones answers)) -> setb e p n ty rs s = true -> SetSig e p n ty rs s.
  Proof.
    intros Ip I H. unfold setb in H. bools. split; [assumption|]. split; [assumption|]. split; [assumption|]. apply passes_valid; [| |apply keys_bytes; exact Ip|assumption].
    - apply rec_held, I. left. reflexivity.
    - apply Forall_forall. intros r Ir. apply rec_held, I. right. exact Ir.
  Qed.
  Lemma rootb_iff z : rootb z = true <-> is_root z.
  Proof. apply bytes_eqb_eq. Qed.

  Lemma world_signed (Vouched : zone -> Prop) : NoDup (map zn_name zones) -> NoDup (map (fun a => (an_name a, an_ty a)) answers) ->
    (forall z, In z zones -> Vouched z) -> (forall a, In a answers -> Forall Fits (an_sigs a)) ->
    (forall a s pre l suf, In a answers -> In s (an_sigs a) -> an_ty a <> 47 ->
      LabelsOf (an_name a) (pre ++ l :: suf) -> N.of_nat (List.length suf) = rs_labels s ->
      exists b q, In b answers /\ an_name b = q ++ rs_key_name s /\
        ((exists n, In (RR_NSec n) (an_recs b) /\ nsec_strict n (dotted (l :: suf))) \/
         (exists n, In (RR_NSec3 n) (an_recs b) /\ nsec3_strict e n (dotted (l :: suf))))) ->
    WellSigned e zones answers Vouched.
  Proof.
    intros ND NA HV HF HD. assert (H := HB). unfold worldb in H. bools. rename H5 into Z, H3 into A, H2 into U, H1 into N3, H0 into WI, H4 into NE. rewrite forallb_forall in Z, A, U, N3, WI.
    constructor.
    - apply existsb_exists in H as (z & Iz & R). exists z. split; [exact Iz|apply rootb_iff; exact R].
    - apply existsb_exists in H6 as (z & Iz & R). exists z. split; [exact Iz|]. rewrite <- rootb_iff. destruct (rootb z); [discriminate R|discriminate].
    - exact ND.
    - intros z Iz. specialize (Z z Iz). unfold zoneb in Z. bools. rewrite forallb_forall in H0, H2. split; [|split; [|exact (HV z Iz)]]; apply Forall_forall.
      + intros k I. apply bytes_eqb_eq, H0. exact I.
      + intros s I. specialize (H2 s I). cbn beta in H2. bools. auto.
    - intros z Iz R. specialize (Z z Iz). unfold zoneb in Z. bools. rewrite <- rootb_iff in R. destruct (rootb z); [exfalso; auto|]. bools. rewrite forallb_forall in H1.
      split; [apply Forall_forall; intros d I; apply bytes_eqb_eq, H1; exact I|]. split; [intros X; rewrite X in H4; discriminate H4|]. split; [intros X; rewrite X in H4; destruct (zn_ds z); discriminate H4|].
      apply existsb_exists in H3 as (p & Ip & P). cbn beta in P. bools. exists p. split; [split; [exact Ip|apply ends_with_spec; assumption]|]. split; [intros ->; apply bytes_neqb in H7; congruence|].
      rewrite forallb_forall in H5. apply Forall_forall. intros s I. apply setb_ok; [exact Ip| |apply H5; exact I].
      intros r Ir. apply in_app_iff. right. apply in_app_iff. right. apply in_flat_map. exists z. split; [exact Iz|]. apply in_app_iff. destruct Ir as [<-|Ir]; [right; apply in_map; exact I|left; exact Ir].
    - intros z Iz R. specialize (Z z Iz). unfold zoneb in Z. bools. rewrite <- rootb_iff in R. rewrite R in H1. destruct (zn_ds z); [|discriminate H1]. destruct (zn_dsigs z); [auto|discriminate H1].
    - intros ->. discriminate NE.
    - exact NA.
    - intros a Ia. specialize (A a Ia). unfold answerb in A. bools. rewrite forallb_forall in H3. split; [|split; [|split; [|split]]].
      + intros I. assert (X : existsb (N.eqb (an_ty a)) [43; 46; 48] = true) by (apply existsb_exists; exists (an_ty a); split; [exact I|apply N.eqb_refl]). rewrite X in H0. discriminate H0.
      + apply Forall_forall. intros r I. specialize (H3 r I). cbn beta in H3. bools. auto.
      + intros X. rewrite X in H2. discriminate H2.
      + intros X. rewrite X in H2. destruct (an_recs a); discriminate H2.
      + apply existsb_exists in H1 as (p & Ip & P). cbn beta in P. bools. exists p. split; [split; [exact Ip|apply ends_with_spec; assumption]|]. split; [|exact (HF a Ia)].
        rewrite forallb_forall in H4. apply Forall_forall. intros s I. apply setb_ok; [exact Ip| |apply H4; exact I].
        intros r Ir. apply in_app_iff. left. apply in_flat_map. exists a. split; [exact Ia|]. apply in_app_iff. destruct Ir as [<-|Ir]; [right; apply in_map; exact I|left; exact Ir].
    - exact HD.
    - intros x s pre l suf _ _ _ _ _. exists (0, []), (0, []). intros a n sub Ia _ I. specialize (N3 a Ia). cbn beta in N3. rewrite forallb_forall in N3. specialize (N3 _ I). discriminate N3.
    - intros z Iz. specialize (U z Iz). unfold usedb in U. apply orb_true_iff in U as [U|U]; [left|right]; apply existsb_exists in U as (a & Ia & U).
      + apply existsb_exists in U as (s & Is & U). bools. exists a, s. auto.
      + cbn beta in U. bools. apply existsb_exists in H1 as (s & Is & U). bools. exists a, s. split; [exact Ia|]. split; [|auto]. intros ->. apply bytes_neqb in H0. congruence.
    - intros a b Ia Ib. specialize (WI a Ia). cbn beta in WI. rewrite forallb_forall in WI. specialize (WI b Ib). bools. assumption.
  Qed.

  (** ** A resolver: every TTL is 60, and denials are in the authority section. *)
  Variable n : list N.
  Variable ty : N.
  Definition plain (r : RR) : bool := match r with RR_NSec _ | RR_NSec3 _ => false | RR_RRSig s => negb ((rs_ty s =? 47) || (rs_ty s =? 50)) | _ => true end.
  Definition lookup (m : list N) (t : N) : list RR :=
    if bytes_eqb m n && (t =? ty) then answer_records answers else
    match find (fun z => bytes_eqb (zn_name z) m) zones with
    | Some z => if t =? 48 then key_records z else if t =? 43 then ds_records z else []
    | None => []
    end.
  Definition l_data (m : list N) (t : N) : list (RR * N) :=
    map (fun r => (r, 60)) (filter plain (lookup m t) ++ filter (fun r => negb (plain r)) (lookup m t)).
  Definition l_resp (m : list N) (t : N) : list N :=
    let a := filter plain (lookup m t) in let u := filter (fun r => negb (plain r)) (lookup m t) in
    q_msg q_ok (len a) (len u) (flat_map (fun r => write_rr r 60) (a ++ u)).
  Definition qlist : list (list N * N) := (n, ty) :: map (fun z => (zn_name z, 48)) zones ++ map (fun z => (zn_name z, 43)) (filter (fun z => negb (rootb z)) zones).
  Definition respb (q : list N * N) : bool :=
    bytes_ok (l_resp (fst q) (snd q)) && (len (l_resp (fst q) (snd q)) <=? 65535).
End Check.
