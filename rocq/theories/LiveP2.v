(** What the resolver has for a correctly signed tree of zones is accepted. *)
From Verif Require Import Base BaseP NameM NameSpec RRM SerM ValM RecSpec ValSpec QuerySpec AcceptSpec AcceptP4 LiveSpec.
From Coq Require Import Lia Permutation.
Local Open Scope N_scope.

Lemma flat_map_nil {A B} (f : A -> list B) l : (forall x, In x l -> f x = []) -> flat_map f l = [].
Proof. induction l as [|x l IH]; intros H; [reflexivity|]. cbn [flat_map]. rewrite (H x (or_introl eq_refl)), IH; [reflexivity|]. intros y Hy. apply H. right. exact Hy. Qed.
Lemma pick_one {A B} (f : A -> list B) l x : NoDup l -> In x l -> (forall y, In y l -> y <> x -> f y = []) -> flat_map f l = f x.
Proof.
  intros ND I H. destruct (in_split x l I) as (a & b & ->). apply NoDup_remove_2 in ND. rewrite flat_map_app. cbn [flat_map].
  rewrite (flat_map_nil f a), (flat_map_nil f b); [apply app_nil_r| |].
  - intros y Hy. apply H; [apply in_app_iff; right; right; exact Hy|]. intros ->. apply ND, in_app_iff. auto.
  - intros y Hy. apply H; [apply in_app_iff; auto|]. intros ->. apply ND, in_app_iff. auto.
Qed.
Lemma flat_flat {A B C} (f : A -> list B) (g : B -> list C) l : flat_map g (flat_map f l) = flat_map (fun x => flat_map g (f x)) l.
Proof. induction l as [|x l IH]; [reflexivity|]. cbn [flat_map]. rewrite flat_map_app, IH. reflexivity. Qed.
Lemma filter_flat {A} (p : A -> bool) l : filter p l = flat_map (fun x => if p x then [x] else []) l.
Proof. induction l as [|x l IH]; [reflexivity|]. cbn [filter flat_map]. rewrite IH. destruct (p x); reflexivity. Qed.
Lemma map_flat {A B C} (f : A -> list B) (g : B -> C) l : map g (flat_map f l) = flat_map (fun x => map g (f x)) l.
Proof. induction l as [|x l IH]; [reflexivity|]. cbn [flat_map]. rewrite map_app, IH. reflexivity. Qed.
Lemma flat_single {A B} (g : A -> list B) (h : A -> B) l : (forall x, In x l -> g x = [h x]) -> flat_map g l = map h l.
Proof. induction l as [|x l IH]; intros H; [reflexivity|]. cbn [flat_map map]. rewrite (H x (or_introl eq_refl)), IH; [reflexivity|]. intros y Hy. apply H. right. exact Hy. Qed.
Lemma flat_map_map {A B C} (g : B -> list C) (h : A -> B) l : flat_map g (map h l) = flat_map (fun x => g (h x)) l.
Proof. induction l as [|x l IH]; [reflexivity|]. cbn [flat_map map]. rewrite IH. reflexivity. Qed.
Lemma map_nodup_inj {A B} (f : A -> B) l x y : NoDup (map f l) -> In x l -> In y l -> f x = f y -> x = y.
Proof.
  induction l as [|a l IH]; intros ND Ix Iy E; [contradiction|]. cbn [map] in ND. inversion ND as [|? ? N1 N2]; subst.
  destruct Ix as [->|Ix], Iy as [->|Iy]; [reflexivity| | |apply IH; assumption].
  - exfalso. apply N1. rewrite E. apply in_map. exact Iy.
  - exfalso. apply N1. rewrite <- E. apply in_map. exact Ix.
Qed.
Lemma nonempty {A} (l : list A) : l <> [] -> exists x, In x l.
Proof. destruct l as [|x l]; [congruence|]. intros _. exists x. left. reflexivity. Qed.

(** Without the unsigned records. *)
Definition ServesJust (zones : list zone) (answers : list rset) (n : list N) (ty : N) (data : list N -> N -> list (RR * N)) : Prop :=
  map fst (data n ty) = answer_records answers /\
  forall z, In z zones -> map fst (data (zn_name z) 48) = key_records z /\ (~ is_root z -> map fst (data (zn_name z) 43) = ds_records z).
Lemma adds_refl {A} (P : A -> Prop) l : Adds P l l.
Proof. induction l; constructor; assumption. Qed.
Lemma adds_in {A} (P : A -> Prop) l l' : Adds P l l' -> incl l l'.
Proof. induction 1 as [|x l l' H IH|x l l' Px H IH]; intros y I; [exact I| |right; auto]. destruct I; [left; assumption|right; auto]. Qed.
Lemma serves_just zones answers n ty data : ServesJust zones answers n ty data -> Serves zones answers n ty data.
Proof. intros [H1 H2]. split; [rewrite H1; apply adds_refl|]. intros z Iz. destruct (H2 z Iz) as [A B]. split; [rewrite A; apply adds_refl|]. intros R. rewrite (B R). apply adds_refl. Qed.

Section Tree.
  Variable e : env.
  Variable zones : list zone.
  Variable answers : list rset.
  Variable n : list N.
  Variable ty : N.
  Variable data : list N -> N -> list (RR * N).
  Variable qs : list (list N * N).
  Variable Vouched : zone -> Prop.
  Hypothesis W : WellSigned e zones answers Vouched.
  Hypothesis SV : ServesJust zones answers n ty data.
  Hypothesis NT : ty <> 43 /\ ty <> 48.
  Hypothesis PQ : Permutation qs (questions n ty (map zn_name zones)).

  Definition recs (q : list N * N) : list RR := map fst (data (fst q) (snd q)).
  Definition tree_inp : list RR := map fst (flat_map (fun q => data (fst q) (snd q)) qs).
  Lemma inp_flat : tree_inp = flat_map recs qs.
  Proof. unfold tree_inp. rewrite map_flat. reflexivity. Qed.

  Inductive Q : list N * N -> Prop :=
  | Q_ans : Q (n, ty)
  | Q_key z : In z zones -> Q (zn_name z, 48)
  | Q_ds z : In z zones -> ~ is_root z -> Q (zn_name z, 43).
  Lemma qs_Q q : In q qs <-> Q q.
  Proof.
    split.
    - intros I. apply (Permutation_in _ PQ) in I as [<-|I]; [constructor|]. apply in_flat_map in I as (k & Ik & I). apply in_map_iff in Ik as (z & <- & Iz).
      apply in_map_iff in I as (t & <- & It). unfold key_types in It. destruct (list_eq_dec N.eq_dec (zn_name z) [46]) as [E|E].
      + destruct It as [<-|[]]. constructor. exact Iz.
      + destruct It as [<-|[<-|[]]]; [apply Q_key; exact Iz|apply Q_ds; [exact Iz|exact E]].
    - intros H. apply (Permutation_in _ (Permutation_sym PQ)). destruct H as [|z I|z I R]; [left; reflexivity| |];
        right; apply in_flat_map; exists (zn_name z); (split; [apply in_map; exact I|]); apply in_map; unfold key_types;
        destruct (list_eq_dec N.eq_dec (zn_name z) [46]) as [E|E]; cbn; auto.
  Qed.
  Lemma qs_nodup : NoDup qs.
  Proof.
    apply (Permutation_NoDup (Permutation_sym PQ)). unfold questions. constructor.
    - intros I. apply in_flat_map in I as (k & _ & I). apply in_map_iff in I as (t & E & It). injection E as _ ->.
      unfold key_types in It. destruct (list_eq_dec _ _ _); cbn in It; intuition congruence.
    - pose proof (ws_names _ _ _ _ W) as ND. clear PQ. induction (map zn_name zones) as [|k l IH]; [constructor|]. inversion ND as [|? ? N1 N2]; subst. cbn [flat_map].
      assert (G : forall a b : list (list N * N), NoDup a -> NoDup b -> (forall x, In x a -> ~ In x b) -> NoDup (a ++ b)).
      { clear. induction a as [|x a IH]; intros b A B D; [exact B|]. inversion A; subst. cbn [app]. constructor.
        - intros I. apply in_app_iff in I as [I|I]; [contradiction|]. exact (D x (or_introl eq_refl) I).
        - apply IH; [assumption|assumption|]. intros y Hy. apply D. right. exact Hy. }
      apply G; [|exact (IH N2)|].
      + unfold key_types. destruct (list_eq_dec _ _ _); cbn; repeat constructor; cbn; intuition congruence.
      + intros x I J. apply in_map_iff in I as (t & <- & _). apply in_flat_map in J as (k' & Ik & J). apply in_map_iff in J as (t' & E & _). injection E as -> _. contradiction.
  Qed.
  Lemma recs_ans : recs (n, ty) = answer_records answers.
  Proof. apply SV. Qed.
  Lemma recs_key z : In z zones -> recs (zn_name z, 48) = key_records z.
  Proof. intros I. apply SV. exact I. Qed.
  Lemma recs_ds z : In z zones -> ~ is_root z -> recs (zn_name z, 43) = ds_records z.
  Proof. intros I R. apply SV; assumption. Qed.
  Lemma zone_eq z z' : In z zones -> In z' zones -> zn_name z = zn_name z' -> z = z'.
  Proof. apply map_nodup_inj, W. Qed.

  (** The records of each kind. *)
  Lemma ans_cases r : In r (answer_records answers) -> exists a, In a answers /\
    ((In r (an_recs a) /\ rr_name r = an_name a /\ rr_ty r = an_ty a /\ ~ In (an_ty a) [43; 46; 48]) \/
     exists s, r = RR_RRSig s /\ In s (an_sigs a) /\ rs_name s = an_name a /\ rs_ty s = an_ty a /\ ~ In (an_ty a) [43; 46; 48]).
  Proof.
    intros I. apply in_flat_map in I as (a & Ia & I). exists a. split; [exact Ia|]. destruct (ws_answers _ _ _ _ W a Ia) as (T & F & _ & _ & p & _ & G & _).
    rewrite Forall_forall in F, G. apply in_app_iff in I as [I|I].
    - left. destruct (F r I). auto.
    - right. apply in_map_iff in I as (s & <- & I). destruct (G s I) as (E1 & E2 & _). exists s. auto.
  Qed.
  Lemma key_cases z r : In z zones -> In r (key_records z) ->
    (exists k, r = RR_DnsKey k /\ In k (zn_keys z) /\ dk_name k = zn_name z) \/ (exists s, r = RR_RRSig s /\ In s (zn_ksigs z) /\ rs_name s = zn_name z /\ rs_ty s = 48).
  Proof.
    intros Iz I. destruct (ws_keys _ _ _ _ W z Iz) as (F & G & _). rewrite Forall_forall in F, G. apply in_app_iff in I as [I|I]; apply in_map_iff in I as (x & <- & I).
    - left. exists x. auto.
    - right. destruct (G x I) as (? & ? & _). exists x. auto.
  Qed.
  Lemma ds_cases z r : In z zones -> ~ is_root z -> In r (ds_records z) ->
    (exists d, r = RR_DS d /\ In d (zn_ds z) /\ ds_name d = zn_name z) \/ (exists s, r = RR_RRSig s /\ In s (zn_dsigs z) /\ rs_name s = zn_name z /\ rs_ty s = 43).
  Proof.
    intros Iz R I. destruct (ws_ds _ _ _ _ W z Iz R) as (F & _ & _ & p & _ & _ & G). rewrite Forall_forall in F, G. apply in_app_iff in I as [I|I]; apply in_map_iff in I as (x & <- & I).
    - left. exists x. auto.
    - right. destruct (G x I) as (? & ? & _). exists x. auto.
  Qed.

  (** Everything a filter selects comes from one question. *)
  Lemma pick {B} (g : RR -> list B) q0 : Q q0 ->
    (q0 <> (n, ty) -> forall r, In r (answer_records answers) -> g r = []) ->
    (forall z, In z zones -> q0 <> (zn_name z, 48) -> forall r, In r (key_records z) -> g r = []) ->
    (forall z, In z zones -> ~ is_root z -> q0 <> (zn_name z, 43) -> forall r, In r (ds_records z) -> g r = []) ->
    flat_map g tree_inp = flat_map g (recs q0).
  Proof.
    intros I HA HK HD. rewrite inp_flat, flat_flat. apply (pick_one (fun q => flat_map g (recs q))); [exact qs_nodup|apply qs_Q; exact I|].
    intros q Iq NE. apply qs_Q in Iq. destruct Iq as [|z Iz|z Iz R]; apply flat_map_nil.
    - rewrite recs_ans. apply HA. congruence.
    - rewrite recs_key by exact Iz. apply HK; [exact Iz|congruence].
    - rewrite recs_ds by assumption. apply HD; [exact Iz|exact R|congruence].
  Qed.
  Lemma q_ans_not_key z : (n, ty) <> (zn_name z, 48).
  Proof. intros H. injection H as _ H. tauto. Qed.
  Lemma q_ans_not_ds z : (n, ty) <> (zn_name z, 43).
  Proof. intros H. injection H as _ H. tauto. Qed.

  Ltac dec := repeat match goal with |- context [list_eq_dec N.eq_dec ?a ?b] => destruct (list_eq_dec N.eq_dec a b) end.

  Lemma tree_keys z : In z zones -> keys_at tree_inp (zn_name z) = zn_keys z.
  Proof.
    intros Iz. unfold keys_at. rewrite (pick _ (zn_name z, 48) (Q_key z Iz)).
    - rewrite recs_key by exact Iz. unfold key_records. rewrite flat_map_app, !flat_map_map. rewrite (flat_map_nil _ (zn_ksigs z)) by reflexivity. rewrite app_nil_r.
      rewrite (flat_single _ (fun k => k)); [apply map_id|]. intros k I. destruct (ws_keys _ _ _ _ W z Iz) as (F & _). rewrite Forall_forall in F. rewrite (F k I). dec; congruence.
    - intros _ r I. destruct (ans_cases r I) as (a & _ & [(_ & _ & T & NI)|(s & -> & _)]); [|reflexivity]. destruct r; try reflexivity. exfalso. apply NI. rewrite <- T. cbn. auto.
    - intros z' Iz' NE r I. destruct (key_cases z' r Iz' I) as [(k & -> & _ & E)|(s & -> & _)]; [|reflexivity]. dec; [|reflexivity]. congruence.
    - intros z' Iz' R _ r I. destruct (ds_cases z' r Iz' R I) as [(k & -> & _)|(s & -> & _)]; reflexivity.
  Qed.
  Lemma tree_key_rrset z : In z zones -> rrset tree_inp (zn_name z) 48 = map RR_DnsKey (zn_keys z).
  Proof.
    intros Iz. unfold rrset. rewrite filter_flat, (pick _ (zn_name z, 48) (Q_key z Iz)).
    - rewrite recs_key by exact Iz. unfold key_records. rewrite flat_map_app, !flat_map_map. rewrite (flat_map_nil _ (zn_ksigs z)) by (intros s _; dec; reflexivity). rewrite app_nil_r.
      apply flat_single. intros k I. destruct (ws_keys _ _ _ _ W z Iz) as (F & _). rewrite Forall_forall in F. cbn [rr_name rr_ty]. rewrite (F k I). dec; [reflexivity|congruence].
    - intros _ r I. dec; [|reflexivity]. destruct (N.eqb_spec (rr_ty r) 48) as [T|]; [|reflexivity]. exfalso.
      destruct (ans_cases r I) as (a & _ & [(_ & _ & T' & NI)|(s & -> & _)]); [|discriminate T]. apply NI. rewrite <- T', T. cbn. auto.
    - intros z' Iz' NE r I. destruct (key_cases z' r Iz' I) as [(k & -> & _ & E)|(s & -> & _)]; [|dec; reflexivity]. dec; [|reflexivity]. cbn [rr_name] in *. congruence.
    - intros z' Iz' R _ r I. destruct (ds_cases z' r Iz' R I) as [(k & -> & _)|(s & -> & _)]; dec; reflexivity.
  Qed.
  Lemma tree_ksigs z : In z zones -> sigs_over tree_inp (zn_name z) 48 = zn_ksigs z.
  Proof.
    intros Iz. unfold sigs_over. rewrite (pick _ (zn_name z, 48) (Q_key z Iz)).
    - rewrite recs_key by exact Iz. unfold key_records. rewrite flat_map_app, !flat_map_map. rewrite (flat_map_nil _ (zn_keys z)) by reflexivity. cbn [app].
      rewrite (flat_single _ (fun k => k)); [apply map_id|]. intros s I. destruct (ws_keys _ _ _ _ W z Iz) as (_ & F & _). rewrite Forall_forall in F. destruct (F s I) as (-> & -> & _). dec; [reflexivity|congruence].
    - intros _ r I. destruct (ans_cases r I) as (a & _ & [(_ & _ & T & NI)|(s & -> & _ & _ & T & NI)]); [destruct r; try reflexivity; exfalso; apply NI; rewrite <- T; cbn; auto|].
      dec; [|reflexivity]. destruct (N.eqb_spec (rs_ty s) 48) as [X|]; [|reflexivity]. exfalso. apply NI. rewrite <- T, X. cbn. auto.
    - intros z' Iz' NE r I. destruct (key_cases z' r Iz' I) as [(k & -> & _)|(s & -> & _ & E & _)]; [reflexivity|]. dec; [|reflexivity]. congruence.
    - intros z' Iz' R _ r I. destruct (ds_cases z' r Iz' R I) as [(k & -> & _)|(s & -> & _ & _ & T)]; [reflexivity|]. rewrite T. dec; reflexivity.
  Qed.
  Lemma tree_ds z : In z zones -> rrset tree_inp (zn_name z) 43 = map RR_DS (zn_ds z).
  Proof.
    intros Iz. assert (GA : forall r, In r (answer_records answers) -> (if if list_eq_dec N.eq_dec (rr_name r) (zn_name z) then rr_ty r =? 43 else false then [r] else []) = []).
    { intros r I. dec; [|reflexivity]. destruct (N.eqb_spec (rr_ty r) 43) as [T|]; [|reflexivity]. exfalso.
      destruct (ans_cases r I) as (a & _ & [(_ & _ & T' & NI)|(s & -> & _)]); [|discriminate T]. apply NI. rewrite <- T', T. cbn. auto. }
    assert (GK : forall z', In z' zones -> forall r, In r (key_records z') -> (if if list_eq_dec N.eq_dec (rr_name r) (zn_name z) then rr_ty r =? 43 else false then [r] else []) = []).
    { intros z' Iz' r I. destruct (key_cases z' r Iz' I) as [(k & -> & _)|(s & -> & _)]; dec; reflexivity. }
    unfold rrset. rewrite filter_flat. destruct (list_eq_dec N.eq_dec (zn_name z) [46]) as [R|R].
    - destruct (ws_no_ds _ _ _ _ W z Iz R) as [-> _]. rewrite (pick _ (zn_name z, 48) (Q_key z Iz)); [|intros _; exact GA|intros z' Iz' _; exact (GK z' Iz')|].
      + rewrite recs_key by exact Iz. apply flat_map_nil. exact (GK z Iz).
      + intros z' Iz' R' _ r I. destruct (ds_cases z' r Iz' R' I) as [(d & -> & _ & E)|(s & -> & _)]; [|dec; reflexivity]. cbn [rr_name]. dec; [|reflexivity]. exfalso. apply R'. unfold is_root. congruence.
    - rewrite (pick _ (zn_name z, 43) (Q_ds z Iz R)); [|intros _; exact GA|intros z' Iz' _; exact (GK z' Iz')|].
      + rewrite recs_ds by assumption. unfold ds_records. rewrite flat_map_app, !flat_map_map. rewrite (flat_map_nil _ (zn_dsigs z)) by (intros s _; dec; reflexivity). rewrite app_nil_r.
        apply flat_single. intros d I. destruct (ws_ds _ _ _ _ W z Iz R) as (F & _). rewrite Forall_forall in F. cbn [rr_name rr_ty]. rewrite (F d I). dec; [reflexivity|congruence].
      + intros z' Iz' R' NE r I. destruct (ds_cases z' r Iz' R' I) as [(d & -> & _ & E)|(s & -> & _)]; [|dec; reflexivity]. cbn [rr_name]. dec; [|reflexivity]. congruence.
  Qed.
  Lemma tree_delegations z : In z zones -> delegations tree_inp (zn_name z) = vouching z.
  Proof.
    intros Iz. unfold delegations, vouching. dec; [reflexivity|]. rewrite tree_ds by exact Iz. rewrite flat_map_map, (flat_single _ (fun d => d)); [apply map_id|reflexivity].
  Qed.
  Lemma tree_answer a : In a answers -> rrset tree_inp (an_name a) (an_ty a) = an_recs a.
  Proof.
    intros Ia. destruct (ws_answers _ _ _ _ W a Ia) as (NI & F & _). rewrite Forall_forall in F. unfold rrset. rewrite filter_flat, (pick _ (n, ty) Q_ans).
    - rewrite recs_ans. unfold answer_records. rewrite flat_flat.
      rewrite (pick_one (fun a' => flat_map _ (an_recs a' ++ map RR_RRSig (an_sigs a'))) answers a); [|eapply NoDup_map_inv; apply W|exact Ia|].
      + rewrite flat_map_app, flat_map_map. rewrite (flat_map_nil _ (an_sigs a)).
        * rewrite app_nil_r, (flat_single _ (fun r => r)); [apply map_id|]. intros r I. destruct (F r I) as [-> ->]. dec; [rewrite N.eqb_refl; reflexivity|congruence].
        * intros s _. cbn [rr_ty]; change T_RRSIG with 46. dec; [|reflexivity]. destruct (N.eqb_spec 46 (an_ty a)) as [X|]; [|reflexivity]. exfalso. apply NI. rewrite <- X. cbn. auto.
      + intros b Ib NE. apply flat_map_nil. intros r I. destruct (ws_answers _ _ _ _ W b Ib) as (_ & F' & _). rewrite Forall_forall in F'. apply in_app_iff in I as [I|I].
        * destruct (F' r I) as [-> ->]. dec; [|reflexivity]. destruct (N.eqb_spec (an_ty b) (an_ty a)) as [X|]; [|reflexivity]. exfalso. apply NE.
          apply (map_nodup_inj (fun a => (an_name a, an_ty a)) answers); [apply W|exact Ib|exact Ia|congruence].
        * apply in_map_iff in I as (s & <- & _). cbn [rr_ty]; change T_RRSIG with 46. dec; [|reflexivity]. destruct (N.eqb_spec 46 (an_ty a)) as [X|]; [|reflexivity]. exfalso. apply NI. rewrite <- X. cbn. auto.
    - congruence.
    - intros z Iz _ r I. dec; [|reflexivity]. destruct (N.eqb_spec (rr_ty r) (an_ty a)) as [X|]; [|reflexivity]. exfalso. apply NI. rewrite <- X.
      destruct (key_cases z r Iz I) as [(k & -> & _)|(s & -> & _)]; cbn; auto.
    - intros z Iz R _ r I. dec; [|reflexivity]. destruct (N.eqb_spec (rr_ty r) (an_ty a)) as [X|]; [|reflexivity]. exfalso. apply NI. rewrite <- X.
      destruct (ds_cases z r Iz R I) as [(k & -> & _)|(s & -> & _)]; cbn; auto.
  Qed.
  Lemma tree_in r : In r tree_inp <-> In r (answer_records answers) \/ (exists z, In z zones /\ In r (key_records z)) \/ (exists z, In z zones /\ ~ is_root z /\ In r (ds_records z)).
  Proof.
    rewrite inp_flat, in_flat_map. split.
    - intros (q & Iq & I). apply qs_Q in Iq. destruct Iq as [|z Iz|z Iz R].
      + rewrite recs_ans in I. auto.
      + rewrite recs_key in I by exact Iz. eauto.
      + rewrite recs_ds in I by assumption. eauto 6.
    - intros [I|[(z & Iz & I)|(z & Iz & R & I)]].
      + exists (n, ty). rewrite recs_ans, qs_Q. split; [constructor|exact I].
      + exists (zn_name z, 48). rewrite recs_key, qs_Q by exact Iz. split; [constructor; exact Iz|exact I].
      + exists (zn_name z, 43). rewrite recs_ds, qs_Q by assumption. split; [constructor; assumption|exact I].
  Qed.
  Lemma tree_sig s : In (RR_RRSig s) tree_inp -> rs_ty s <> 48 ->
    (exists z, In z zones /\ ~ is_root z /\ In s (zn_dsigs z)) \/ (exists a, In a answers /\ In s (an_sigs a)).
  Proof.
    intros I T. apply tree_in in I as [I|[(z & Iz & I)|(z & Iz & R & I)]].
    - right. destruct (ans_cases _ I) as (a & Ia & [(_ & _ & X & NI)|(s' & E & Is & _)]); [exfalso; apply NI; rewrite <- X; cbn; auto|]. injection E as <-. eauto.
    - destruct (key_cases z _ Iz I) as [(k & E & _)|(s' & E & _ & _ & X)]; [discriminate E|]. injection E as <-. contradiction.
    - left. destruct (ds_cases z _ Iz R I) as [(k & E & _)|(s' & E & Is & _)]; [discriminate E|]. injection E as <-. eauto.
  Qed.
  Lemma in_dsig z s : In z zones -> ~ is_root z -> In s (zn_dsigs z) -> In (RR_RRSig s) tree_inp.
  Proof. intros Iz R I. apply tree_in. right. right. exists z. split; [exact Iz|]. split; [exact R|]. apply in_app_iff. right. apply in_map. exact I. Qed.
  Lemma in_asig a s : In a answers -> In s (an_sigs a) -> In (RR_RRSig s) tree_inp.
  Proof. intros Ia I. apply tree_in. left. apply in_flat_map. exists a. split; [exact Ia|]. apply in_app_iff. right. apply in_map. exact I. Qed.

  Notation GSig := (GoodSig e tree_inp).
  Notation Vis := (Visited e tree_inp).
  Lemma dsig_good z : In z zones -> ~ is_root z -> exists p, In p zones /\ p <> z /\ (exists q, zn_name z = q ++ zn_name p) /\
    forall s, In s (zn_dsigs z) -> GSig (zn_name p) s /\ rs_ty s = 43 /\ rs_name s = zn_name z.
  Proof.
    intros Iz R. destruct (ws_ds _ _ _ _ W z Iz R) as (F & NE & NS & p & (Ip & q & E) & NP & G). exists p. split; [exact Ip|]. split; [exact NP|]. split; [eauto|].
    rewrite Forall_forall in G. intros s Is. destruct (G s Is) as (E1 & E2 & E3 & V). split; [|auto]. split.
    - split; [exact (in_dsig z s Iz R Is)|]. split; [exact E3|]. rewrite E2. discriminate.
    - rewrite tree_keys by exact Ip. rewrite E1, E2, tree_ds by exact Iz. exact V.
  Qed.
  Lemma asig_good a : In a answers -> exists p, In p zones /\ (exists q, an_name a = q ++ zn_name p) /\
    forall s, In s (an_sigs a) -> GSig (zn_name p) s /\ rs_ty s = an_ty a /\ rs_name s = an_name a /\ Fits s.
  Proof.
    intros Ia. destruct (ws_answers _ _ _ _ W a Ia) as (NI & F & NE & NS & p & (Ip & q & E) & G & FF). exists p. split; [exact Ip|]. split; [eauto|].
    rewrite Forall_forall in G, FF. intros s Is. destruct (G s Is) as (E1 & E2 & E3 & V). split; [|auto]. split.
    - split; [exact (in_asig a s Ia Is)|]. split; [exact E3|]. rewrite E2. intros X. apply NI. rewrite X. cbn. auto.
    - rewrite tree_keys by exact Ip. rewrite E1, E2, tree_answer by exact Ia. exact V.
  Qed.
  Lemma visited_zone z : Vis z -> exists x, In x zones /\ zn_name x = z.
  Proof.
    induction 1 as [|z s V IH G T].
    - destruct (ws_root _ _ _ _ W) as (z & Iz & R). exists z. auto.
    - destruct G as [(I & _ & _) _]. destruct (tree_sig s I) as [(c & Ic & R & Is)|(a & Ia & Is)]; [congruence| |].
      + destruct (dsig_good c Ic R) as (p & _ & _ & _ & G). destruct (G s Is) as (_ & _ & E). exists c. auto.
      + destruct (asig_good a Ia) as (p & _ & _ & G). destruct (G s Is) as (_ & E & _). destruct (ws_answers _ _ _ _ W a Ia) as (NI & _). exfalso. apply NI. rewrite <- E, T. cbn. auto.
  Qed.
  Lemma parent_shorter z p q : In z zones -> In p zones -> p <> z -> zn_name z = q ++ zn_name p -> (length (zn_name p) < length (zn_name z))%nat.
  Proof.
    intros Iz Ip NE E. destruct q as [|c q]; [exfalso; apply NE, zone_eq; auto|]. rewrite E, app_length. cbn. lia.
  Qed.
  Lemma zone_visited z : In z zones -> Vis (zn_name z).
  Proof.
    remember (length (zn_name z)) as l eqn:L. revert z L. induction l as [l IH] using (well_founded_induction PeanoNat.Nat.lt_wf_0). intros z -> Iz.
    destruct (list_eq_dec N.eq_dec (zn_name z) [46]) as [R|R]; [rewrite R; constructor|].
    destruct (dsig_good z Iz R) as (p & Ip & NP & (q & E) & G). destruct (ws_ds _ _ _ _ W z Iz R) as (_ & _ & NS & _).
    destruct (nonempty _ NS) as (s & Is). destruct (G s Is) as (Gs & T & <-).
    apply (Vi_child _ _ (zn_name p)); [|exact Gs|exact T]. apply (IH (length (zn_name p))); [|reflexivity|exact Ip]. eapply parent_shorter; eauto.
  Qed.
  Lemma root_delegates z : In z zones -> ~ is_root z -> exists s, GSig [46] s /\ rs_ty s = 43.
  Proof.
    remember (length (zn_name z)) as l eqn:L. revert z L. induction l as [l IH] using (well_founded_induction PeanoNat.Nat.lt_wf_0). intros z -> Iz R.
    destruct (dsig_good z Iz R) as (p & Ip & NP & (q & E) & G). destruct (ws_ds _ _ _ _ W z Iz R) as (_ & _ & NS & _). destruct (nonempty _ NS) as (s & Is).
    destruct (list_eq_dec N.eq_dec (zn_name p) [46]) as [R'|R'].
    - destruct (G s Is) as (Gs & T & _). exists s. rewrite R' in Gs. auto.
    - apply (IH (length (zn_name p))) with (z := p); auto. eapply parent_shorter; eauto.
  Qed.
  Lemma zone_sig z s : ZoneSig tree_inp z s ->
    (exists c, In c zones /\ ~ is_root c /\ In s (zn_dsigs c) /\ exists p, In p zones /\ p <> c /\ zn_name p = z) \/ (exists a, In a answers /\ In s (an_sigs a)).
  Proof.
    intros (I & K & T). destruct (tree_sig s I T) as [(c & Ic & R & Is)|H]; [left|auto].
    destruct (dsig_good c Ic R) as (p & Ip & NP & _ & G). destruct (G s Is) as [[(_ & K' & _) _] _]. exists c. split; [exact Ic|]. split; [exact R|]. split; [exact Is|].
    exists p. split; [exact Ip|]. split; [exact NP|]. congruence.
  Qed.
  Lemma used_sig s : Used e tree_inp s -> In s (all_sigs zones answers).
  Proof.
    intros (z & V & [(pre & post & E & _)|G]); unfold all_sigs; apply in_app_iff.
    - left. destruct (visited_zone z V) as (x & Ix & <-). rewrite tree_ksigs in E by exact Ix. apply in_flat_map. exists x. split; [exact Ix|]. apply in_app_iff. left. rewrite E. apply in_app_iff. right. left. reflexivity.
    - destruct G as [Z _]. destruct (zone_sig _ _ Z) as [(c & Ic & _ & Is & _)|(a & Ia & Is)].
      + left. apply in_flat_map. exists c. split; [exact Ic|]. apply in_app_iff. auto.
      + right. apply in_flat_map. eauto.
  Qed.
  Lemma answer_proven a r : In a answers -> In r (an_recs a) -> Proven e tree_inp r.
  Proof.
    intros Ia Ir. destruct (asig_good a Ia) as (p & Ip & _ & G). destruct (ws_answers _ _ _ _ W a Ia) as (NI & _ & _ & NS & _). destruct (nonempty _ NS) as (s & Is).
    destruct (G s Is) as (Gs & T & E & _). exists (zn_name p), s. split; [apply zone_visited; exact Ip|]. split; [exact Gs|]. rewrite T, E, tree_answer by exact Ia. split; [|exact Ir].
    intros X. apply NI. rewrite X. cbn. auto.
  Qed.
  Lemma proven_answer r : Proven e tree_inp r -> exists a, In a answers /\ In r (an_recs a).
  Proof.
    intros (z & s & V & G & T & I). destruct (zone_sig _ _ (proj1 G)) as [(c & Ic & R & Is & _)|(a & Ia & Is)].
    - destruct (dsig_good c Ic R) as (p & _ & _ & _ & H). destruct (H s Is) as (_ & X & _). contradiction.
    - exists a. split; [exact Ia|]. destruct (asig_good a Ia) as (p & _ & _ & H). destruct (H s Is) as (_ & E1 & E2 & _). rewrite E1, E2, tree_answer in I by exact Ia. exact I.
  Qed.
  Lemma tree_acceptable : (forall z, In z zones -> FirstVouched e z) -> Acceptable e tree_inp.
  Proof.
    intros HV. constructor.
    - intros z V. destruct (visited_zone z V) as (x & Ix & <-). destruct (HV x Ix) as (pre & s & post & E & VS & U). exists s. exists pre, post.
      rewrite tree_ksigs, tree_delegations, tree_keys, tree_key_rrset by exact Ix. split; [exact E|]. split; [exact U|exact VS].
    - intros z s V Z. destruct (zone_sig _ _ Z) as [(c & Ic & R & Is & _)|(a & Ia & Is)].
      + destruct (dsig_good c Ic R) as (p & Ip & NP & (q & E) & G). destruct (G s Is) as (Gs & T & E2). pose proof Gs as [(_ & K & _) _]. destruct Z as (_ & K' & _). assert (EZ : z = zn_name p) by congruence. rewrite EZ.
        split; [exists q; congruence|]. right. split; [exact Gs|]. split; [rewrite T; discriminate|]. left. exact T.
      + destruct (asig_good a Ia) as (p & Ip & (q & E) & G). destruct (G s Is) as (Gs & T & E2 & FF). pose proof Gs as [(_ & K & _) _]. destruct Z as (_ & K' & _). assert (EZ : z = zn_name p) by congruence. rewrite EZ.
        split; [exists q; congruence|]. right. auto.
    - destruct (nonempty _ (ws_some _ _ _ _ W)) as (a & Ia). destruct (ws_answers _ _ _ _ W a Ia) as (_ & _ & NE & _). destruct (nonempty _ NE) as (r & Ir). exists r. eapply answer_proven; eauto.
    - destruct (ws_other _ _ _ _ W) as (z & Iz & R). eapply root_delegates; eauto.
    - intros z s V G T E. destruct (zone_sig _ _ (proj1 G)) as [(c & Ic & R & Is & p & Ip & NP & EP)|(a & Ia & Is)].
      + destruct (dsig_good c Ic R) as (p0 & _ & _ & _ & H). destruct (H s Is) as (_ & _ & E2). apply NP, zone_eq; auto. congruence.
      + destruct (asig_good a Ia) as (p & _ & _ & H). destruct (H s Is) as (_ & X & _). destruct (ws_answers _ _ _ _ W a Ia) as (NI & _). apply NI. rewrite <- X, T. cbn. auto.
    - intros a b Ua Ub. apply (ws_window _ _ _ _ W); apply used_sig; assumption.
  Qed.
  Lemma tree_inner : InnerDenials e tree_inp.
  Proof.
    intros z nc t (s & pre & l & suf & V & G & T43 & T47 & -> & LO & LL & ->).
    destruct (zone_sig _ _ (proj1 G)) as [(c & Ic & R & Is & _)|(a & Ia & Is)].
    { destruct (dsig_good c Ic R) as (p & _ & _ & _ & H). destruct (H s Is) as (_ & X & _). contradiction. }
    destruct (asig_good a Ia) as (p & Ip & _ & H). destruct (H s Is) as (Gs & ET & EN & _). rewrite EN in LO.
    destruct (ws_denied _ _ _ _ W a s pre l suf Ia Is ltac:(congruence) LO LL) as (b & q & Ib & EB & D).
    assert (ZK : rs_key_name s = z) by apply (proj1 G). rewrite ZK in EB. destruct (ws_answers _ _ _ _ W b Ib) as (_ & F & _). rewrite Forall_forall in F.
    destruct D as [(x & Ix & D)|(x & Ix & D)]; [left|right]; exists x, q; (split; [eapply answer_proven; eauto|]); (split; [|exact D]); destruct (F _ Ix) as [E _]; cbn [rr_name] in E; congruence.
  Qed.
  Lemma tree_two : TwoParams e tree_inp.
  Proof.
    intros z nc t (s & pre & l & suf & V & G & T43 & T47 & -> & LO & LL & ->).
    destruct (zone_sig _ _ (proj1 G)) as [(c & Ic & R & Is & _)|(a & Ia & Is)].
    { destruct (dsig_good c Ic R) as (p & _ & _ & _ & H). destruct (H s Is) as (_ & X & _). contradiction. }
    destruct (asig_good a Ia) as (p & Ip & _ & H). destruct (H s Is) as (Gs & ET & EN & _). rewrite EN in LO.
    destruct (ws_params _ _ _ _ W a s pre l suf Ia Is ltac:(congruence) LO LL) as (pp & qq & HP). exists pp, qq. intros x sub P EX _ _.
    destruct (proven_answer _ P) as (b & Ib & Ix). destruct (ws_answers _ _ _ _ W b Ib) as (_ & F & _). rewrite Forall_forall in F.
    assert (ZK : rs_key_name s = z) by apply (proj1 G). apply (HP b x sub Ib); [|exact Ix]. destruct (F _ Ix) as [E _]. cbn [rr_name] in E. congruence.
  Qed.
  Lemma tree_max s : In (RR_RRSig s) tree_inp -> ~ EmptyMaxLabels tree_inp s.
  Proof.
    intros I (E & _ & T43 & _ & _ & T48 & _). destruct (tree_sig s I T48) as [(c & Ic & R & Is)|(a & Ia & Is)].
    - destruct (dsig_good c Ic R) as (p & _ & _ & _ & H). destruct (H s Is) as (_ & X & _). contradiction.
    - destruct (asig_good a Ia) as (p & _ & _ & H). destruct (H s Is) as (_ & E1 & E2 & _). rewrite E1, E2, tree_answer in E by exact Ia.
      destruct (ws_answers _ _ _ _ W a Ia) as (_ & _ & NE & _). contradiction.
  Qed.
  Lemma tree_accepted : (forall z, In z zones -> FirstVouched e z) -> Forall Held tree_inp -> SortsNeeds e -> exists fuel v, verify_rr_stream e false fuel tree_inp = Ok v /\
    forall r, In r (vr_rrs v) <-> exists a, In a answers /\ In r (an_recs a) /\ an_ty a <> 47 /\ an_ty a <> 50.
  Proof.
    intros HV Hd SN. destruct (inner_accepted e tree_inp Hd SN tree_max tree_two (tree_acceptable HV) tree_inner) as (fuel & v & E). exists fuel, v. split; [exact E|].
    destruct (verdict_result e tree_inp fuel v Hd E) as [R _]. intros r. rewrite R. split.
    - intros (P & N47 & N50). destruct (proven_answer r P) as (a & Ia & Ir). exists a. destruct (ws_answers _ _ _ _ W a Ia) as (_ & F & _). rewrite Forall_forall in F. destruct (F r Ir) as [_ T]. rewrite <- T. auto.
    - intros (a & Ia & Ir & N47 & N50). destruct (ws_answers _ _ _ _ W a Ia) as (_ & F & _). rewrite Forall_forall in F. destruct (F r Ir) as [_ T]. rewrite T. split; [eapply answer_proven; eauto|auto].
  Qed.

  (** The zones are just the signers. *)
  Lemma tree_asked m t : Asked data n ty m t -> Q (m, t).
  Proof.
    induction 1 as [|m t k t' A IH (rt & Irt & K) T]; [constructor|].
    assert (G : exists z, In z zones /\ zn_name z = k).
    { assert (I : In (fst rt) tree_inp). { rewrite inp_flat. apply in_flat_map. exists (m, t). split; [apply qs_Q; exact IH|]. unfold recs. apply in_map. exact Irt. }
      unfold signer_of in K. destruct (fst rt) as [| | | | | | | | |s| |]; try contradiction. destruct K as [<-|[]].
      apply tree_in in I as [I|[(z & Iz & I)|(z & Iz & R & I)]].
      - destruct (ans_cases _ I) as (a & Ia & [(_ & _ & X & NI)|(s' & E & Is & _)]); [exfalso; apply NI; rewrite <- X; cbn; auto|]. injection E as <-.
        destruct (asig_good a Ia) as (p & Ip & _ & H). destruct (H s Is) as [[(_ & X & _) _] _]. exists p. auto.
      - destruct (key_cases z _ Iz I) as [(k & E & _)|(s' & E & Is & _)]; [discriminate E|]. injection E as <-. destruct (ws_keys _ _ _ _ W z Iz) as (_ & F & _). rewrite Forall_forall in F. destruct (F s Is) as (_ & _ & X). exists z. auto.
      - destruct (ds_cases z _ Iz R I) as [(k & E & _)|(s' & E & Is & _)]; [discriminate E|]. injection E as <-.
        destruct (dsig_good z Iz R) as (p & Ip & _ & _ & H). destruct (H s Is) as [[(_ & X & _) _] _]. exists p. auto. }
    destruct G as (z & Iz & <-). unfold key_types in T. destruct (list_eq_dec N.eq_dec (zn_name z) [46]) as [E|E].
    - destruct T as [<-|[]]. constructor. exact Iz.
    - destruct T as [<-|[<-|[]]]; constructor; assumption.
  Qed.
  Lemma signer_zone m t k : Asked data n ty m t -> SignsFor data m t k -> exists z, In z zones /\ zn_name z = k.
  Proof.
    intros A S. assert (In 48 (key_types k)) as T by (unfold key_types; destruct (list_eq_dec _ _ _); left; reflexivity).
    pose proof (tree_asked _ _ (Asked_key _ _ _ _ _ _ _ A S T)) as H. remember (k, 48) as q eqn:E. destruct H as [|z Iz|z Iz R]; [injection E as E1 E2; exfalso; tauto|injection E as E1; exists z; auto|discriminate E].
  Qed.
  Lemma zone_signs z : In z zones -> exists m t, Asked data n ty m t /\ SignsFor data m t (zn_name z).
  Proof.
    assert (B : exists M, forall c, In c zones -> (length (zn_name c) <= M)%nat).
    { clear. induction zones as [|c l (M & IH)]; [exists 0%nat; intros ? []|]. exists (Nat.max M (length (zn_name c))). intros c' [<-|I]; [lia|]. specialize (IH c' I). lia. }
    destruct B as (M & B). remember (M - length (zn_name z))%nat as d eqn:D. revert z D. induction d as [d IH] using (well_founded_induction PeanoNat.Nat.lt_wf_0). intros z D Iz.
    destruct (ws_used _ _ _ _ W z Iz) as [(a & s & Ia & Is & K)|(c & s & Ic & NC & Is & K)].
    - exists n, ty. split; [constructor|]. assert (I : In (RR_RRSig s) (recs (n, ty))). { rewrite recs_ans. apply in_flat_map. exists a. split; [exact Ia|]. apply in_app_iff. right. apply in_map. exact Is. }
      apply in_map_iff in I as (rt & E & I). exists rt. split; [exact I|]. unfold signer_of. rewrite E. left. exact K.
    - assert (R : ~ is_root c). { intros R. destruct (ws_no_ds _ _ _ _ W c Ic R) as [_ X]. rewrite X in Is. exact Is. }
      destruct (dsig_good c Ic R) as (p & Ip & NP & (q & E) & H). destruct (H s Is) as [[(_ & K' & _) _] _]. assert (p = z) as -> by (apply zone_eq; auto; congruence).
      pose proof (parent_shorter c z q Ic Iz NP E) as LT. pose proof (B c Ic) as LB.
      destruct (IH (M - length (zn_name c))%nat ltac:(lia) c eq_refl Ic) as (m & t & A & S).
      exists (zn_name c), 43. split.
      + apply (Asked_key _ _ _ m t); [exact A|exact S|]. unfold key_types. destruct (list_eq_dec N.eq_dec (zn_name c) [46]) as [X|X]; [exfalso; exact (R X)|cbn; auto].
      + assert (I : In (RR_RRSig s) (recs (zn_name c, 43))). { rewrite recs_ds by assumption. apply in_app_iff. right. apply in_map. exact Is. }
        apply in_map_iff in I as (rt & E' & I). exists rt. split; [exact I|]. unfold signer_of. rewrite E'. left. exact K.
  Qed.
  Lemma tree_signers : AllSigners data n ty (map zn_name zones).
  Proof.
    split; [apply W|]. intros k. split.
    - intros I. apply in_map_iff in I as (z & <- & Iz). apply zone_signs. exact Iz.
    - intros (m & t & A & S). destruct (signer_zone m t k A S) as (z & Iz & <-). apply in_map. exact Iz.
  Qed.
End Tree.
