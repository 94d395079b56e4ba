(** From an answering resolver and a correctly signed tree to a proof which validates. *)
From Verif Require Import Base BaseP NameM NameSpec RRM SerM ValM RecSpec RecP2 ValSpec HeldP QueryM QuerySpec QueryP AcceptSpec ValP4 DbgP OrderP LiveSpec LiveP LiveP2.
From Coq Require Import Lia Permutation.
Local Open Scope N_scope.

Lemma needed_root ks : NoDup ks -> In [46] ks -> needed ks = (2 * length ks)%nat.
Proof.
  assert (G : forall l, ~ In [46] l -> length (flat_map key_types l) = (2 * length l)%nat).
  { induction l as [|k l IH]; intros NI; [reflexivity|]. cbn [flat_map length]. rewrite app_length, IH by (intros I; apply NI; right; exact I).
    unfold key_types. destruct (list_eq_dec N.eq_dec k [46]) as [->|_]; [exfalso; apply NI; left; reflexivity|]. cbn [length]. lia. }
  intros ND I. destruct (in_split _ _ I) as (a & b & ->). unfold needed. rewrite flat_map_app. cbn [flat_map]. rewrite !app_length. cbn [length].
  apply NoDup_remove_2 in ND. rewrite (G a), (G b) by (intros J; apply ND, in_app_iff; auto). change (length (key_types [46])) with 1%nat. lia.
Qed.

(** ** Unsigned records *)
Lemma adds_filter {A} (P : A -> Prop) (f : A -> bool) l l' : (forall x, P x -> f x = false) -> Adds P l l' -> Forall (fun x => f x = true) l -> filter f l' = l.
Proof.
  intros HP H. induction H as [|x l l' H IH|x l l' Px H IH]; intros F; [reflexivity| |].
  - inversion F as [|? ? Fx Fl]; subst. cbn [filter]. rewrite Fx, IH by exact Fl. reflexivity.
  - cbn [filter]. rewrite (HP x Px). auto.
Qed.
Lemma filter_fst {A B} (f : A -> bool) (l : list (A * B)) : map fst (filter (fun x => f (fst x)) l) = filter f (map fst l).
Proof. induction l as [|[a b] l IH]; [reflexivity|]. cbn [map filter fst]. destruct (f a); cbn [map fst]; rewrite IH; reflexivity. Qed.
Lemma unsigned_many e dbg fuel (f : RR -> bool) b : forall a,
  (forall r, In r b -> f r = false -> rr_ty r <> 46 /\ forall s, In (RR_RRSig s) (a ++ b) -> rs_ty s = rr_ty r -> rs_name s <> rr_name r) ->
  verify_rr_stream e dbg fuel (a ++ filter f b) = verify_rr_stream e dbg fuel (a ++ b).
Proof.
  induction b as [|r b IH]; intros a H; [reflexivity|]. cbn [filter]. destruct (f r) eqn:Fr.
  - replace (a ++ r :: filter f b) with ((a ++ [r]) ++ filter f b) by (rewrite <- app_assoc; reflexivity).
    replace (a ++ r :: b) with ((a ++ [r]) ++ b) by (rewrite <- app_assoc; reflexivity). apply IH.
    intros x Ix Fx. rewrite <- app_assoc. apply H; [right; exact Ix|exact Fx].
  - destruct (H r (or_introl eq_refl) Fr) as [T S]. rewrite unsigned_ignored; [|exact T|].
    + apply IH. intros x Ix Fx. destruct (H x (or_intror Ix) Fx) as [T' S']. split; [exact T'|]. intros s I. apply S'. apply in_app_iff in I. apply in_app_iff. destruct I; [auto|right; right; assumption].
    + intros s I. apply S. apply in_app_iff in I. apply in_app_iff. destruct I; [auto|right; right; assumption].
Qed.

Section More.
  Variable e : env.
  Variable zones : list zone.
  Variable answers : list rset.
  Variable n : list N.
  Variable ty : N.
  Variable data : list N -> N -> list (RR * N).
  Hypothesis W : WellSigned e zones answers (FirstVouched e).
  Hypothesis SV : Serves zones answers n ty data.
  Hypothesis NT : ty <> 43 /\ ty <> 48.
  Definition signedb (r : RR) : bool :=
    (rr_ty r =? 46) || existsb (fun s => (rs_ty s =? rr_ty r) && bytes_eqb (rs_name s) (rr_name r)) (all_sigs zones answers).
  Definition signed_data (m : list N) (t : N) : list (RR * N) := filter (fun rt => signedb (fst rt)) (data m t).
  Lemma signedb_false r : signedb r = false <-> Unsigned zones answers r.
  Proof.
    unfold signedb, Unsigned. rewrite orb_false_iff, N.eqb_neq, <- not_true_iff_false, existsb_exists. split; intros [H1 H2]; (split; [exact H1|]).
    - intros s I E1 E2. apply H2. exists s. split; [exact I|]. rewrite E1, N.eqb_refl. apply bytes_eqb_eq. exact E2.
    - intros (s & I & E). apply andb_true_iff in E as [E1 E2]. apply N.eqb_eq in E1. apply bytes_eqb_eq in E2. exact (H2 s I E1 E2).
  Qed.
  Lemma signed_by r s : In s (all_sigs zones answers) -> rs_ty s = rr_ty r -> rs_name s = rr_name r -> signedb r = true.
  Proof. intros I E1 E2. unfold signedb. apply orb_true_iff. right. apply existsb_exists. exists s. split; [exact I|]. rewrite E1, N.eqb_refl. apply bytes_eqb_eq. exact E2. Qed.
  Lemma answers_signed : Forall (fun r => signedb r = true) (answer_records answers).
  Proof.
    apply Forall_forall. intros r I. apply in_flat_map in I as (a & Ia & I). destruct (ws_answers _ _ _ _ W a Ia) as (_ & F & _ & NE & p & _ & G & _).
    apply in_app_iff in I as [I|I]; [|apply in_map_iff in I as (s & <- & _); reflexivity]. rewrite Forall_forall in F, G. destruct (F r I) as [E1 E2].
    destruct (an_sigs a) as [|s l] eqn:ES; [contradiction|]. destruct (G s (or_introl eq_refl)) as (E3 & E4 & _). apply (signed_by r s); [|congruence|congruence].
    apply in_app_iff. right. apply in_flat_map. exists a. split; [exact Ia|]. rewrite ES. left. reflexivity.
  Qed.
  Lemma keys_signed z : In z zones -> Forall (fun r => signedb r = true) (key_records z).
  Proof.
    intros Iz. apply Forall_forall. intros r I. destruct (ws_keys _ _ _ _ W z Iz) as (F & G & pre & s & post & E & _). rewrite Forall_forall in F, G.
    apply in_app_iff in I as [I|I]; apply in_map_iff in I as (x & <- & I); [|reflexivity]. assert (Is : In s (zn_ksigs z)) by (rewrite E; apply in_elt).
    destruct (G s Is) as (E1 & E2 & _). apply (signed_by _ s); [|exact E2|rewrite E1; symmetry; exact (F x I)].
    apply in_app_iff. left. apply in_flat_map. exists z. split; [exact Iz|]. apply in_app_iff. auto.
  Qed.
  Lemma ds_signed z : In z zones -> ~ is_root z -> Forall (fun r => signedb r = true) (ds_records z).
  Proof.
    intros Iz R. apply Forall_forall. intros r I. destruct (ws_ds _ _ _ _ W z Iz R) as (F & _ & NE & p & _ & _ & G). rewrite Forall_forall in F, G.
    apply in_app_iff in I as [I|I]; apply in_map_iff in I as (x & <- & I); [|reflexivity]. destruct (zn_dsigs z) as [|s l] eqn:ES; [contradiction|].
    destruct (G s (or_introl eq_refl)) as (E1 & E2 & _). apply (signed_by _ s); [|exact E2|rewrite E1; symmetry; exact (F x I)].
    apply in_app_iff. left. apply in_flat_map. exists z. split; [exact Iz|]. apply in_app_iff. right. rewrite ES. left. reflexivity.
  Qed.
  Lemma signed_serves : ServesJust zones answers n ty signed_data.
  Proof.
    assert (X : forall x, Unsigned zones answers x -> signedb x = false) by (intros x; apply signedb_false).
    destruct SV as [H1 H2]. unfold ServesJust, signed_data. split; [rewrite filter_fst; exact (adds_filter _ _ _ _ X H1 answers_signed)|].
    intros z Iz. destruct (H2 z Iz) as [A B]. split; [rewrite filter_fst; exact (adds_filter _ _ _ _ X A (keys_signed z Iz))|].
    intros R. rewrite filter_fst. exact (adds_filter _ _ _ _ X (B R) (ds_signed z Iz R)).
  Qed.
  Lemma signed_signs m t k : SignsFor signed_data m t k <-> SignsFor data m t k.
  Proof.
    unfold SignsFor, signed_data. split; intros (rt & I & K); exists rt; (split; [|exact K]); [apply filter_In in I; tauto|]. apply filter_In. split; [exact I|].
    destruct rt as [r x]. unfold signer_of in K. cbn [fst] in *. destruct r; cbn in K; try contradiction. reflexivity.
  Qed.
  Lemma signed_asked m t : Asked signed_data n ty m t <-> Asked data n ty m t.
  Proof. split; intros H; (induction H as [|m t k t' H IH S T]; [constructor|econstructor; [exact IH|apply signed_signs; exact S|exact T]]). Qed.
  Lemma live_signers : AllSigners data n ty (map zn_name zones).
  Proof.
    destruct (tree_signers e zones answers n ty signed_data _ _ W signed_serves NT (Permutation_refl _)) as [ND H]. split; [exact ND|]. intros k. rewrite H.
    split; intros (m & t & A & S); exists m, t; (split; [apply signed_asked; exact A|apply signed_signs; exact S]).
  Qed.
  Lemma sig_all qs s : Permutation qs (questions n ty (map zn_name zones)) -> In (RR_RRSig s) (tree_inp data qs) -> In s (all_sigs zones answers).
  Proof.
    intros P I. assert (J : In (RR_RRSig s) (tree_inp signed_data qs)).
    { unfold tree_inp in *. apply in_map_iff in I as (rt & E & I). apply in_flat_map in I as (q & Iq & I). apply in_map_iff. exists rt. split; [exact E|]. apply in_flat_map. exists q. split; [exact Iq|].
      apply filter_In. split; [exact I|]. rewrite E. reflexivity. }
    apply (tree_in _ _ _ _ _ _ signed_serves P) in J. apply in_app_iff. destruct J as [J|[(z & Iz & J)|(z & Iz & R & J)]].
    - right. apply in_flat_map in J as (a & Ia & J). apply in_flat_map. exists a. split; [exact Ia|]. apply in_app_iff in J as [J|J].
      + exfalso. destruct (ws_answers _ _ _ _ W a Ia) as (T & F & _). rewrite Forall_forall in F. destruct (F _ J) as [_ E]. apply T. rewrite <- E. right. left. reflexivity.
      + apply in_map_iff in J as (x & E & J). injection E as ->. exact J.
    - left. apply in_flat_map. exists z. split; [exact Iz|]. apply in_app_iff. left. apply in_app_iff in J as [J|J]; apply in_map_iff in J as (x & E & J); [discriminate E|]. injection E as ->. exact J.
    - left. apply in_flat_map. exists z. split; [exact Iz|]. apply in_app_iff. right. apply in_app_iff in J as [J|J]; apply in_map_iff in J as (x & E & J); [discriminate E|]. injection E as ->. exact J.
  Qed.
  Lemma signed_inp qs : tree_inp signed_data qs = filter signedb (tree_inp data qs).
  Proof.
    unfold tree_inp, signed_data. rewrite <- filter_fst. f_equal. induction qs as [|q qs IH]; [reflexivity|]. cbn [flat_map]. rewrite filter_app, IH. reflexivity.
  Qed.
  Lemma more_same dbg fuel qs : Permutation qs (questions n ty (map zn_name zones)) ->
    verify_rr_stream e dbg fuel (tree_inp data qs) = verify_rr_stream e dbg fuel (tree_inp signed_data qs).
  Proof.
    intros P. rewrite signed_inp. symmetry. apply (unsigned_many e dbg fuel signedb (tree_inp data qs) []). intros r I F. apply signedb_false in F as [T S]. split; [exact T|].
    intros s Is. apply S. eapply sig_all; eassumption.
  Qed.
End More.

(** The records for all questions, in whatever order, are read back and accepted. *)
Lemma live_checked e dbg zones answers n ty data resp qs : ty <> 43 /\ ty <> 48 -> SortsNeeds e ->
  WellSigned e zones answers (FirstVouched e) -> Serves zones answers n ty data -> Answers data dbg n ty resp ->
  (forall m t rt, Asked data n ty m t -> In rt (data m t) -> wf_rr (fst rt)) -> Permutation qs (questions n ty (map zn_name zones)) ->
  exists fuel v, (forall dbg', verify_rr_stream e dbg' fuel (tree_inp data qs) = Ok v) /\
    (forall r, In r (vr_rrs v) <-> exists a, In a answers /\ In r (an_recs a) /\ an_ty a <> 47 /\ an_ty a <> 50) /\
    forall dbg', parse_rr_stream dbg' (flat_map (fun rt => write_rr (fst rt) (snd rt)) (flat_map (fun q => data (fst q) (snd q)) qs)) = Ok (tree_inp data qs).
Proof.
  intros NT SN W SV HA HW P. pose proof (live_signers e zones answers n ty data W SV NT) as HK.
  assert (AS : forall q, In q qs -> Asked data n ty (fst q) (snd q)).
  { intros q I. apply (Permutation_in _ P) in I as [<-|I]; [constructor|]. apply in_flat_map in I as (k & Ik & I). apply in_map_iff in I as (t & <- & It). cbn [fst snd].
    destruct HK as [_ HK]. apply HK in Ik as (m & t' & A & S). exact (Asked_key _ _ _ _ _ _ _ A S It). }
  assert (F : Forall (fun rt => wf_rr (fst rt) /\ is_u32 (snd rt) /\ Held (fst rt)) (flat_map (fun q => data (fst q) (snd q)) qs)).
  { apply Forall_forall. intros rt I. apply in_flat_map in I as (q & Iq & I). destruct (HA _ _ (AS q Iq)) as (BB & _ & RS & _). destruct (response_held _ _ _ RS BB) as [H _].
    rewrite Forall_forall in H. destruct (H rt I) as [Hd U]. split; [exact (HW _ _ _ (AS q Iq) I)|]. auto. }
  assert (Hd : Forall Held (tree_inp data qs)).
  { apply Forall_forall. intros r I. apply in_map_iff in I as (rt & <- & I). rewrite Forall_forall in F. apply F. exact I. }
  assert (Hd' : Forall Held (tree_inp (signed_data zones answers data) qs)).
  { rewrite signed_inp. apply Forall_forall. intros r I. apply filter_In in I as [I _]. rewrite Forall_forall in Hd. auto. }
  destruct (tree_accepted e zones answers n ty _ qs _ W (signed_serves e zones answers n ty data W SV) NT P (fun z Iz => proj2 (proj2 (ws_keys _ _ _ _ W z Iz))) Hd' SN) as (fuel & v & E & R).
  exists fuel, v. split.
  { assert (EF : verify_rr_stream e false fuel (tree_inp data qs) = Ok v) by (rewrite (more_same e zones answers n ty data W SV false fuel qs P); exact E).
    intros [|]; [|exact EF]. rewrite <- EF. symmetry. apply verify_same. rewrite (more_same e zones answers n ty data W SV true fuel qs P). intros PA.
    destruct (verify_panic e true (tree_inp (signed_data zones answers data) qs)) with (fuel := fuel) as (_ & z & s & EM & _ & SZ & _); [|exact PA|].
    - apply Forall_forall. intros r I. rewrite Forall_forall in Hd'. split; [exact (Hd' r I)|]. apply fits_no_overflow; [exact (Hd' r I)|]. rewrite signed_inp in I. apply filter_In in I as [I _].
      apply in_map_iff in I as (rt & <- & I). rewrite Forall_forall in F. destruct (F rt I) as ((_ & FT & _) & _). exact FT.
    - exact (tree_max e zones answers n ty _ qs _ W (signed_serves e zones answers n ty data W SV) NT P s SZ EM). }
  split; [exact R|]. intros dbg'.
  apply write_parse_stream. eapply Forall_impl; [|exact F]. intros rt (A & B' & _). exact (conj A B').
Qed.
Lemma zones_needed zones e answers V : WellSigned e zones answers V -> (length zones <= 5)%nat -> (needed (map zn_name zones) <= 10)%nat.
Proof.
  intros W HL. rewrite needed_root; [rewrite map_length; lia|apply W|]. destruct (ws_root _ _ _ _ W) as (z & Iz & R). rewrite <- R. apply in_map. exact Iz.
Qed.
Lemma live_verified e dbg zones answers n ty data resp : name_try_from n = Some n -> ty < 65536 -> ty <> 43 /\ ty <> 48 -> SortsNeeds e ->
  WellSigned e zones answers (FirstVouched e) -> Serves zones answers n ty data -> Answers data dbg n ty resp ->
  (forall m t rt, Asked data n ty m t -> In rt (data m t) -> wf_rr (fst rt)) -> (length zones <= 5)%nat ->
  Works e dbg zones answers n ty resp.
Proof.
  intros V T NT SN W SV HA HW HL. pose proof (live_signers e zones answers n ty data W SV NT) as HK.
  destruct (live_built data dbg n ty resp _ V T HA HK (zones_needed _ _ _ _ W HL)) as (qs & sent & P & _ & Q & B & _). exists qs, sent. split; [exact P|]. split; [exact Q|]. intros segs rest C.
  destruct (B segs rest C) as (ttl & BP & _). eexists. exists ttl. split; [exact BP|]. intros dbg'.
  destruct (live_checked e dbg zones answers n ty data resp qs NT SN W SV HA HW P) as (fuel & v & E & R & PS). exists (tree_inp data qs), fuel, v. auto.
Qed.
