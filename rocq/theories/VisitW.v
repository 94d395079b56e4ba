(** A chain of [n] nested zones, the DS RRset of each signed by every zone above it, is visited 2^n times. *)
From Coq Require Import Lia PeanoNat String.
From Verif Require Import Base BaseP NameSpec NameM NameP WireM RRM SerM RecSpec RecP RecP2 ValM ValSpec HeldP ValP ValP2 ValP3 ValP4 ValW VisitP.
Local Open Scope N_scope.

(** The [k]th zone: a.a. ... a. *)
Fixpoint as_dots (k : nat) : list N := match k with O => [] | S k => 97 :: 46 :: as_dots k end.
Definition zn (k : nat) : list N := match k with O => [46] | _ => as_dots k end.
Definition v_key (z : list N) : dnskey := {| dk_name := z; dk_flags := 257; dk_protocol := 3; dk_alg := 8; dk_pubkey := [1; 3; 74; 90] |}.
Definition v_ds (z : list N) : ds := {| ds_name := z; ds_key_tag := 20326; ds_alg := 8; ds_digest_type := 2; ds_digest := root_digest_20326 |}.
Definition v_sig (nm : list N) (ty : N) (signer : list N) : rrsig :=
  {| rs_name := nm; rs_ty := ty; rs_alg := 8; rs_labels := labels nm; rs_orig_ttl := 3600;
     rs_expiration := 2000000000; rs_inception := 1000000000; rs_key_tag := 20326; rs_key_name := signer; rs_signature := [] |}.
Definition v_zone_rrs (k : nat) : list RR :=
  [RR_DS (v_ds (zn k)); RR_DnsKey (v_key (zn k)); RR_RRSig (v_sig (zn k) 48 (zn k))] ++ map (fun j => RR_RRSig (v_sig (zn k) 43 (zn j))) (seq 0 k).
Definition nest (n : nat) : list RR :=
  [RR_DnsKey (v_key [46]); RR_RRSig (v_sig [46] 48 [46]); w_a "x."; RR_RRSig (v_sig (bs "x.") 1 [46])] ++ flat_map v_zone_rrs (seq 1 n).

(** ** Names *)
Lemma as_dots_length k : List.length (as_dots k) = (2 * k)%nat.
Proof. induction k; cbn [as_dots List.length]; lia. Qed.
Lemma zn_length k : List.length (zn k) = match k with O => 1%nat | _ => (2 * k)%nat end.
Proof. destruct k; [reflexivity | apply as_dots_length]. Qed.
Lemma zn_inj j k : zn j = zn k -> j = k.
Proof. intros H. apply (f_equal (@List.length _)) in H. rewrite !zn_length in H. destruct j, k; lia. Qed.
Lemma as_dots_split k j : as_dots (k + j) = as_dots k ++ as_dots j.
Proof. induction k as [| k IH]; [reflexivity |]. cbn [as_dots Nat.add app]. rewrite IH. reflexivity. Qed.
Lemma zn_under j k : (j < k)%nat -> ends_with (zn k) (zn j) = true.
Proof.
  intros H. apply ends_with_spec. destruct k as [| k]; [lia |]. destruct j as [| j].
  - replace (zn (S k)) with (as_dots (k + 1)) by (rewrite Nat.add_comm; reflexivity). rewrite as_dots_split. exists (as_dots k ++ [97]). rewrite <- app_assoc. reflexivity.
  - exists (as_dots (S k - S j)). change (zn (S j)) with (as_dots (S j)). rewrite <- as_dots_split. change (zn (S k)) with (as_dots (S k)). f_equal. lia.
Qed.
Lemma zn_eqb j k : bytes_eqb (zn j) (zn k) = Nat.eqb j k.
Proof.
  destruct (Nat.eqb_spec j k) as [-> | N]; [apply bytes_eqb_refl |]. apply bytes_eqb_neq. intros C. apply N, zn_inj, C.
Qed.
Lemma x_zn k : bytes_eqb (bs "x.") (zn k) = false.
Proof. destruct k as [| k]; [reflexivity |]. apply bytes_eqb_neq. discriminate. Qed.

(** ** Filters *)
Lemma filter_flat {A B} (p : B -> bool) (f : A -> list B) l : filter p (flat_map f l) = flat_map (fun x => filter p (f x)) l.
Proof. induction l; cbn [flat_map filter]; [reflexivity |]. rewrite filter_app. congruence. Qed.
Lemma flat_flat {A B C} (g : B -> list C) (f : A -> list B) l : flat_map g (flat_map f l) = flat_map (fun x => flat_map g (f x)) l.
Proof. induction l; cbn [flat_map]; [reflexivity |]. rewrite flat_map_app. congruence. Qed.
Lemma flat_ext {A B} (f g : A -> list B) l : (forall x, In x l -> f x = g x) -> flat_map f l = flat_map g l.
Proof. induction l; cbn [flat_map]; intros H; [reflexivity |]. rewrite H by (left; reflexivity). f_equal. apply IHl. intros. apply H. right. assumption. Qed.
Lemma flat_single {A} (f : nat -> A) a n k : (a <= k < a + n)%nat -> flat_map (fun x => if Nat.eqb x k then [f x] else []) (seq a n) = [f k].
Proof.
  revert a. induction n as [| n IH]; intros a H; [lia |]. cbn [seq flat_map]. destruct (Nat.eqb_spec a k) as [-> | N].
  - cbn [app]. f_equal. rewrite (flat_ext _ (fun _ => [])).
    + induction (seq (S k) n); auto.
    + intros x Hx. apply in_seq in Hx. destruct (Nat.eqb_spec x k); [lia | reflexivity].
  - apply IH. lia.
Qed.
Lemma flat_none {A B} (f : A -> list B) l : (forall x, In x l -> f x = []) -> flat_map f l = [].
Proof. induction l; cbn [flat_map]; intros H; [reflexivity |]. rewrite H by (left; reflexivity). apply IHl. intros. apply H. right. assumption. Qed.

Lemma sigs_of k : flat_map as_rrsig (v_zone_rrs k) = v_sig (zn k) 48 (zn k) :: map (fun j => v_sig (zn k) 43 (zn j)) (seq 0 k).
Proof. unfold v_zone_rrs. cbn [app flat_map as_rrsig]. f_equal. induction (seq 0 k); cbn; congruence. Qed.
Lemma nest_rrsigs n : rrsigs (nest n) = v_sig [46] 48 [46] :: v_sig (bs "x.") 1 [46] ::
  flat_map (fun k => v_sig (zn k) 48 (zn k) :: map (fun j => v_sig (zn k) 43 (zn j)) (seq 0 k)) (seq 1 n).
Proof. unfold rrsigs, nest. cbn [app flat_map as_rrsig w_a]. do 2 f_equal. rewrite flat_flat. apply flat_ext. intros. apply sigs_of. Qed.

Lemma filter_none {A} (p : A -> bool) l : (forall x, In x l -> p x = false) -> filter p l = [].
Proof. induction l; cbn [filter]; intros H; [reflexivity |]. rewrite H by (left; reflexivity). apply IHl. intros. apply H. right. assumption. Qed.

Lemma nest_dnskey_rrsigs n k : (k <= n)%nat -> dnskey_rrsigs (nest n) (zn k) = [v_sig (zn k) 48 (zn k)].
Proof.
  intros H. unfold dnskey_rrsigs. rewrite nest_rrsigs. cbn [filter rs_name rs_ty v_sig]. rewrite x_zn. cbn [andb]. change [46] with (zn 0) at 1. rewrite zn_eqb.
  rewrite filter_flat. rewrite (flat_ext _ (fun x => if Nat.eqb x k then [v_sig (zn x) 48 (zn x)] else [])).
  - destruct k as [| k].
    + cbn [Nat.eqb andb N.eqb T_DNSKEY Pos.eqb]. rewrite flat_none; [reflexivity |]. intros x Hx. apply in_seq in Hx. destruct x; [lia | reflexivity].
    + cbn [Nat.eqb andb]. rewrite flat_single by lia. reflexivity.
  - intros x _. cbn [filter rs_name rs_ty v_sig]. rewrite zn_eqb. change (48 =? T_DNSKEY) with true. rewrite Bool.andb_true_r.
    rewrite (filter_none _ (map _ _)); [destruct (Nat.eqb x k); reflexivity |]. intros s Hs. apply in_map_iff in Hs as (j & <- & _). apply Bool.andb_false_r.
Qed.
Lemma nest_zone_dnskeys n k : (k <= n)%nat -> zone_dnskeys (nest n) (zn k) = [v_key (zn k)].
Proof.
  intros H. unfold zone_dnskeys, nest. cbn [app flat_map as_dnskey w_a filter dk_name v_key]. change [46] with (zn 0) at 1. rewrite zn_eqb.
  rewrite flat_flat, filter_flat. rewrite (flat_ext _ (fun x => if Nat.eqb x k then [v_key (zn x)] else [])).
  - destruct k as [| k].
    + cbn [Nat.eqb]. rewrite flat_none; [reflexivity |]. intros x Hx. apply in_seq in Hx. destruct x; [lia | reflexivity].
    + cbn [Nat.eqb]. rewrite flat_single by lia. reflexivity.
  - intros x _. unfold v_zone_rrs. cbn [app flat_map as_dnskey]. rewrite (flat_none as_dnskey (map _ _)).
    + cbn [filter dk_name v_key]. rewrite zn_eqb. reflexivity.
    + intros r Hr. apply in_map_iff in Hr as (j & <- & _). reflexivity.
Qed.
Lemma filter_seq (f : nat -> rrsig) j k : filter (fun i => Nat.eqb i j) (seq 0 k) = if (j <? k)%nat then [j] else [].
Proof.
  assert (G : forall a n, filter (fun i => Nat.eqb i j) (seq a n) = if (a <=? j)%nat && (j <? a + n)%nat then [j] else []).
  { intros a n. revert a. induction n as [| n IH]; intros a; cbn [seq filter].
    - destruct (Nat.leb_spec a j), (Nat.ltb_spec j (a + 0)); try reflexivity; lia.
    - rewrite IH. destruct (Nat.eqb_spec a j), (Nat.leb_spec (S a) j), (Nat.ltb_spec j (S a + n)), (Nat.leb_spec a j), (Nat.ltb_spec j (a + S n)); subst; cbn [andb]; try reflexivity; lia. }
  rewrite G. reflexivity.
Qed.
Lemma filter_map {A B} (p : B -> bool) (f : A -> B) l : filter p (map f l) = map f (filter (fun x => p (f x)) l).
Proof. induction l; cbn [map filter]; [reflexivity |]. destruct (p (f a)); cbn [map]; congruence. Qed.
Definition children (n j : nat) : list rrsig := map (fun k => v_sig (zn k) 43 (zn j)) (seq (S j) (n - j)).
Lemma nest_zone_rrsigs n j : (j <= n)%nat ->
  zone_rrsigs (nest n) (zn j) = (if Nat.eqb j 0 then [v_sig (bs "x.") 1 [46]] else []) ++ children n j.
Proof.
  intros H. unfold zone_rrsigs. rewrite nest_rrsigs. cbn [filter rs_key_name rs_ty v_sig]. change (negb (48 =? T_DNSKEY)) with false. change (negb (1 =? T_DNSKEY)) with true.
  rewrite Bool.andb_false_r, Bool.andb_true_r. change [46] with (zn 0) at 1. rewrite zn_eqb.
  assert (E : filter (fun s => bytes_eqb (rs_key_name s) (zn j) && negb (rs_ty s =? T_DNSKEY))
      (flat_map (fun k => v_sig (zn k) 48 (zn k) :: map (fun i => v_sig (zn k) 43 (zn i)) (seq 0 k)) (seq 1 n)) = children n j).
  { rewrite filter_flat. rewrite (flat_ext _ (fun x => if (j <? x)%nat then [v_sig (zn x) 43 (zn j)] else [])).
    - unfold children. replace n with (j + (n - j))%nat at 1 by lia. rewrite seq_app, flat_map_app. rewrite flat_none.
      + cbn [app]. replace (1 + j)%nat with (S j) by lia. generalize (n - j)%nat. intros m.
        assert (G : forall a, (j < a)%nat -> flat_map (fun x => if (j <? x)%nat then [v_sig (zn x) 43 (zn j)] else []) (seq a m) = map (fun k => v_sig (zn k) 43 (zn j)) (seq a m)); [| apply G; lia].
        induction m as [| m IH]; intros a Ha; cbn [seq flat_map map]; [reflexivity |]. destruct (Nat.ltb_spec j a); [| lia]. cbn [app]. f_equal. apply IH. lia.
      + intros x Hx. apply in_seq in Hx. destruct (Nat.ltb_spec j x); [lia | reflexivity].
    - intros x _. cbn [filter rs_key_name rs_ty v_sig]. change (negb (48 =? T_DNSKEY)) with false. rewrite Bool.andb_false_r. rewrite filter_map. cbn [rs_key_name rs_ty v_sig].
      rewrite (filter_ext _ (fun i => Nat.eqb i j)).
      + rewrite (filter_seq (fun _ => v_sig [] 0 [])). destruct (j <? x)%nat; reflexivity.
      + intros i. rewrite zn_eqb. change (negb (43 =? T_DNSKEY)) with true. apply Bool.andb_true_r. }
  rewrite E. rewrite Nat.eqb_sym. destruct (Nat.eqb j 0); reflexivity.
Qed.
Lemma nest_covered n k j : (1 <= k <= n)%nat -> covered (nest n) (v_sig (zn k) 43 (zn j)) = [RR_DS (v_ds (zn k))].
Proof.
  intros H. unfold covered, nest. cbn [app filter rr_name rr_ty w_a v_key v_sig rs_name rs_ty dk_name a_name]. change (T_DNSKEY =? 43) with false. change (T_RRSIG =? 43) with false. change (T_A =? 43) with false.
  rewrite !Bool.andb_false_r. rewrite filter_flat. rewrite (flat_ext _ (fun x => if Nat.eqb x k then [RR_DS (v_ds (zn x))] else [])).
  - apply (flat_single (fun x => RR_DS (v_ds (zn x)))). lia.
  - intros x _. unfold v_zone_rrs. cbn [app filter rr_name rr_ty w_a v_key v_sig v_ds rs_name rs_ty dk_name ds_name]. rewrite zn_eqb. change (T_DS =? 43) with true. change (T_DNSKEY =? 43) with false. change (T_RRSIG =? 43) with false.
    rewrite !Bool.andb_false_r, Bool.andb_true_r. rewrite (filter_none _ (map _ _)); [reflexivity |].
    intros r Hr. apply in_map_iff in Hr as (i & <- & _). cbn [rr_name rr_ty]. change (T_RRSIG =? 43) with false. apply Bool.andb_false_r.
Qed.

(** ** Running it *)
Definition mk (z : list N) (r : list RR) (p : list (list N * list ds)) : vstate :=
  {| v_zone := z; v_res := r; v_needs := []; v_pending := p; v_inception := 1000000000; v_expiry := 2000000000; v_ttl := 3600 |}.
Definition ent (k : nat) : list N * list ds := (zn k, [v_ds (zn k)]).

Lemma note_mk nm ty signer z r p : note_sig (v_sig nm ty signer) (mk z r p) = mk z r p.
Proof. reflexivity. Qed.
Lemma v_key_tag z : key_tag (v_key z) = 20326.
Proof. reflexivity. Qed.
Lemma one_sig nm ty signer z r : rr_ty r = ty -> rr_name r = nm -> verify_rrsig toy_env false (v_sig nm ty signer) [v_key z] [r] = Ok tt.
Proof.
  intros T NM. unfold verify_rrsig. cbn [existsb v_sig rs_ty]. rewrite T, N.eqb_refl. cbn [negb orb verify_with_keys]. unfold key_usable. rewrite v_key_tag.
  change ((20326 =? rs_key_tag (v_sig nm ty signer)) && (dk_protocol (v_key z) =? 3) && negb (N.land (dk_flags (v_key z)) 256 =? 0) && (dk_alg (v_key z) =? rs_alg (v_sig nm ty signer))) with true.
  cbn iota. change (sort_by rr_cmp [r]) with [r]. cbn [signed_records]. unfold signed_record. rewrite NM. cbn [v_sig rs_labels]. rewrite N.eqb_refl. cbn [negb]. rewrite Bool.andb_false_r.
  reflexivity.
Qed.
Lemma child_step n j k r p : (j < k <= n)%nat -> ~ In (zn k) (map fst p) ->
  sig_step toy_env false (nest n) (zn j) (v_sig (zn k) 43 (zn j)) (mk (zn j) r p) = Ok (mk (zn j) r (ent k :: p)).
Proof.
  intros H NI. unfold sig_step. cbn [v_sig rs_name]. rewrite zn_under by lia. cbn [negb]. rewrite nest_zone_dnskeys by lia.
  change {| rs_name := zn k; rs_ty := 43; rs_alg := 8; rs_labels := labels (zn k); rs_orig_ttl := 3600; rs_expiration := 2000000000; rs_inception := 1000000000; rs_key_tag := 20326; rs_key_name := zn j; rs_signature := [] |}
    with (v_sig (zn k) 43 (zn j)). rewrite nest_covered by lia. rewrite one_sig by reflexivity. rewrite note_mk.
  change (rs_ty (v_sig (zn k) 43 (zn j))) with 43. change ((43 =? T_RRSIG) || (43 =? T_DNSKEY)) with false. change (43 =? T_DS) with true. cbn iota zeta. f_equal. unfold push_ds.
  cbn [mk v_pending]. replace (existsb (fun q => bytes_eqb (fst q) (rs_name (v_sig (zn k) 43 (zn j)))) p) with false.
  - rewrite nest_covered by lia. reflexivity.
  - symmetry. apply Bool.not_true_iff_false. intros C. apply existsb_exists in C as (q & C1 & C2). apply bytes_eqb_eq in C2. apply NI. cbn [v_sig rs_name] in C2. rewrite <- C2. apply in_map, C1.
Qed.
Definition low (j : nat) (p : list (list N * list ds)) : Prop := forall q, In q p -> exists i, q = ent i /\ (i <= j)%nat.
Lemma children_loop n j r p : (j <= n)%nat -> low j p ->
  sigs_loop toy_env false (nest n) (zn j) (children n j) (mk (zn j) r p) = Ok (mk (zn j) r (map ent (rev (seq (S j) (n - j))) ++ p)).
Proof.
  intros H L. unfold children.
  assert (G : forall m a p, (j < a)%nat -> (a + m = S n)%nat -> (forall q, In q p -> exists i, q = ent i /\ (i < a)%nat) ->
    sigs_loop toy_env false (nest n) (zn j) (map (fun k => v_sig (zn k) 43 (zn j)) (seq a m)) (mk (zn j) r p) = Ok (mk (zn j) r (map ent (rev (seq a m)) ++ p))).
  { clear p L. induction m as [| m IH]; intros a p Ha Hm L; [reflexivity |]. cbn [seq map sigs_loop]. rewrite child_step.
    - cbn [obind]. rewrite IH; [| lia | lia |].
      + cbn [rev]. rewrite map_app, <- app_assoc. reflexivity.
      + intros q [<- | Q]; [exists a; split; [reflexivity | lia] |]. destruct (L q Q) as (i & -> & I). exists i. split; [reflexivity | lia].
    - lia.
    - intros C. apply in_map_iff in C as (q & C1 & C2). destruct (L q C2) as (i & -> & I). cbn [fst ent] in C1. apply zn_inj in C1. lia. }
  apply G; [lia | lia |]. intros q Q. destruct (L q Q) as (i & -> & I). exists i. split; [reflexivity | lia].
Qed.

Lemma zone_keys n k dses : (k <= n)%nat -> validated_dnskeys toy_env dses [v_key (zn k)] = [v_key (zn k)] -> is_nil dses = false ->
  existsb (fun d => (ds_digest_type d =? 1) || (ds_digest_type d =? 2) || (ds_digest_type d =? 4)) dses = true ->
  verify_dnskeys toy_env false (dnskey_rrsigs (nest n) (zn k)) dses (zone_dnskeys (nest n) (zn k)) = Ok (v_sig (zn k) 48 (zn k)).
Proof.
  intros H V N E. unfold verify_dnskeys. rewrite N, E. cbn [negb]. rewrite nest_dnskey_rrsigs, nest_zone_dnskeys, V by assumption. cbn [verify_dnskey_sigs map].
  rewrite one_sig by reflexivity. reflexivity.
Qed.
Lemma visit n j z r p : (1 <= j <= n)%nat -> low j p ->
  zone_step toy_env false (nest n) (mk z r (ent j :: p)) = Ok (mk (zn j) r (map ent (rev (seq (S j) (n - j))) ++ p)).
Proof.
  intros H L. unfold zone_step, pop_zone. cbn [mk v_pending ent v_zone v_res v_needs v_inception v_expiry v_ttl].
  change root_name with (zn 0). rewrite zn_eqb. destruct (Nat.eqb_spec j 0); [lia |]. cbn iota beta. rewrite zone_keys; [| lia | reflexivity | reflexivity | reflexivity]. cbn [obind].
  match goal with |- context [note_sig ?s ?st] => change (note_sig s st) with (mk (zn j) r p) end.
  rewrite nest_zone_rrsigs by lia. destruct (Nat.eqb_spec j 0); [lia |]. cbn [app]. apply children_loop; [lia | exact L].
Qed.

Lemma busy z r k p : bytes_eqb z root_name || negb (is_nil (v_pending (mk z r (ent k :: p)))) = true.
Proof. apply Bool.orb_true_r. Qed.
Lemma seq_last n m : (m < n)%nat -> rev (seq (S (n - S m)) (S m)) = rev (seq (S (n - m)) m) ++ [(n - m)%nat].
Proof. intros H. cbn [seq rev]. replace (S (n - S m)) with (n - m)%nat by lia. reflexivity. Qed.
Lemma low_cons n m p : (m < n)%nat -> low (n - S m) p -> low (n - m) (ent (n - m) :: p).
Proof. intros H L q [<- | Q]; [eauto |]. destruct (L q Q) as (i & -> & I). exists i. split; [reflexivity | lia]. Qed.
Lemma low_mono a b p : low a p -> (a <= b)%nat -> low b p.
Proof. intros L H q Q. destruct (L q Q) as (i & -> & I). exists i. split; [reflexivity | lia]. Qed.

(** [m] zones waiting below the (n-m)th take 2^m - 1 visits. *)
Lemma drain n m : (m <= n)%nat -> forall r z f p, low (n - m) p ->
  zone_loop toy_env false (nest n) (2 ^ m - 1 + f) (mk z r (map ent (rev (seq (S (n - m)) m)) ++ p)) =
  zone_loop toy_env false (nest n) f (mk (if Nat.eqb m 0 then z else zn n) r p).
Proof.
  induction m as [| m IH]; intros H r z f p L; [reflexivity |]. rewrite seq_last by lia. rewrite map_app, <- app_assoc. cbn [map app].
  assert (POS : (1 <= 2 ^ m)%nat) by (pose proof (Nat.pow_nonzero 2 m); lia).
  replace (2 ^ S m - 1 + f)%nat with (2 ^ m - 1 + S (2 ^ m - 1 + f))%nat by (cbn [Nat.pow]; lia).
  rewrite IH by (lia || apply low_cons; assumption || lia). cbn [zone_loop]. rewrite busy, visit by (lia || (apply low_mono with (n - S m)%nat; [assumption | lia])). cbn [obind].
  replace (n - (n - m))%nat with m by lia. rewrite IH by (lia || (apply low_mono with (n - S m)%nat; [assumption | lia])). destruct m; [rewrite Nat.sub_0_r |]; reflexivity.
Qed.
Lemma undrained n m : (m <= n)%nat -> forall r z f p, low (n - m) p -> (f < 2 ^ m - 1)%nat ->
  zone_loop toy_env false (nest n) f (mk z r (map ent (rev (seq (S (n - m)) m)) ++ p)) = Loop.
Proof.
  induction m as [| m IH]; intros H r z f p L F; [cbn in F; lia |]. rewrite seq_last by lia. rewrite map_app, <- app_assoc. cbn [map app].
  assert (POS : (1 <= 2 ^ m)%nat) by (pose proof (Nat.pow_nonzero 2 m); lia).
  destruct (Nat.lt_ge_cases f (2 ^ m - 1)) as [G | G]; [apply IH; [lia | apply low_cons; [lia | assumption] | exact G] |].
  replace f with (2 ^ m - 1 + (f - (2 ^ m - 1)))%nat by lia. rewrite drain by (lia || (apply low_cons; [lia | assumption])).
  remember (f - (2 ^ m - 1))%nat as g. destruct g as [| g]; cbn [zone_loop]; rewrite busy; [reflexivity |].
  rewrite visit by (lia || (apply low_mono with (n - S m)%nat; [assumption | lia])). cbn [obind]. replace (n - (n - m))%nat with m by lia.
  apply IH; [lia | apply low_mono with (n - S m)%nat; [assumption | lia] |]. cbn [Nat.pow] in F. lia.
Qed.

Lemma nest_covered_x n : covered (nest n) (v_sig (bs "x.") 1 [46]) = [w_a "x."].
Proof.
  unfold covered, nest. rewrite filter_app, filter_flat, flat_none; [rewrite app_nil_r; reflexivity |].
  intros k Hk. apply in_seq in Hk. destruct k as [| k]; [lia |]. apply filter_none. intros r Hr. apply Bool.andb_false_iff. right. unfold v_zone_rrs in Hr.
  apply in_app_or in Hr as [Hr | Hr]; [cbn [In] in Hr; destruct Hr as [<- | [<- | [<- | []]]]; reflexivity |]. apply in_map_iff in Hr as (j & <- & _). reflexivity.
Qed.
Lemma visit_root n : zone_step toy_env false (nest n) vinit = Ok (mk [46] [w_a "x."] (map ent (rev (seq 1 n)))).
Proof.
  unfold zone_step, pop_zone. cbn [vinit v_pending v_zone]. change (bytes_eqb root_name root_name) with true. cbn iota. change root_name with (zn 0).
  rewrite (zone_keys n 0); [| lia | reflexivity | reflexivity | reflexivity]. cbn [obind]. rewrite nest_zone_rrsigs by lia. cbn [Nat.eqb app].
  cbn [sigs_loop]. unfold sig_step at 1. cbn [v_sig rs_name rs_key_name]. change (negb (ends_with (bs "x.") (zn 0))) with false. cbn iota.
  change {| rs_name := bs "x."; rs_ty := 1; rs_alg := 8; rs_labels := labels (bs "x."); rs_orig_ttl := 3600; rs_expiration := 2000000000; rs_inception := 1000000000; rs_key_tag := 20326; rs_key_name := [46]; rs_signature := [] |}
    with (v_sig (bs "x.") 1 [46]). rewrite nest_covered_x, nest_zone_dnskeys by lia. rewrite one_sig by reflexivity.
  change (wildcard_need false (v_sig (bs "x.") 1 [46])) with (@Ok verr (list need) []).
  match goal with |- obind ?a ?b = _ => change (obind a b) with (sigs_loop toy_env false (nest n) (zn 0) (children n 0) (mk (zn 0) [w_a "x."] [])) end.
  rewrite children_loop; [| lia | intros q []]. rewrite app_nil_r, Nat.sub_0_r. reflexivity.
Qed.
Lemma nest_loops n : verify_rr_stream toy_env false (2 ^ n - 1) (nest n) = Loop.
Proof.
  unfold verify_rr_stream. destruct (2 ^ n - 1)%nat as [| f] eqn:E; [reflexivity |]. cbn [zone_loop]. change (bytes_eqb (v_zone vinit) root_name) with true. cbn [orb].
  rewrite visit_root. cbn [obind]. pose proof (undrained n n ltac:(lia) [w_a "x."] [46] f []) as U. rewrite Nat.sub_diag, app_nil_r in U. rewrite U; [reflexivity | intros q [] | lia].
Qed.
Lemma nest_ends n : (1 <= n)%nat -> exists v, verify_rr_stream toy_env false (2 ^ n) (nest n) = Ok v /\ vr_rrs v = [w_a "x."].
Proof.
  intros H. assert (POS : (1 <= 2 ^ n)%nat) by (pose proof (Nat.pow_nonzero 2 n); lia). eexists.
  unfold verify_rr_stream. replace (2 ^ n)%nat with (S (2 ^ n - 1 + 0)) by lia. cbn [zone_loop]. change (bytes_eqb (v_zone vinit) root_name) with true. cbn [orb].
  rewrite visit_root. cbn [obind]. pose proof (drain n n ltac:(lia) [w_a "x."] [46] O []) as U. rewrite Nat.sub_diag, app_nil_r in U. rewrite U; [| intros q []].
  destruct n as [| n]; [lia |]. cbn [Nat.eqb zone_loop mk v_zone v_pending is_nil negb]. change root_name with (zn 0). rewrite zn_eqb. cbn [Nat.eqb orb].
  split; [cbn [obind]; vm_compute; reflexivity | reflexivity].
Qed.

(** ** It is an ordinary stream of modest size *)
Lemma zn_valid k : (k <= 127)%nat -> name_try_from (zn k) = Some (zn k).
Proof.
  intros H. destruct k as [| k]; [reflexivity |]. apply name_try_from_spec. change (zn (S k)) with (as_dots (S k)). split.
  - exists (repeat [97] (S k)). split; [discriminate |]. split; [| split].
    + generalize (S k). intros m. induction m as [| m IH]; [reflexivity |]. cbn [as_dots repeat]. unfold dots in *. cbn [map List.concat app]. rewrite <- IH. reflexivity.
    + apply Forall_forall. intros l I. apply repeat_spec in I. subst. split; [cbn; lia |]. repeat constructor; discriminate.
    + rewrite as_dots_length. lia.
  - generalize (S k). intros m. induction m as [| m IH]; [reflexivity |]. cbn [as_dots lower map]. unfold lower in IH. cbn [map]. rewrite <- IH. reflexivity.
Qed.
Lemma labels_u8 n : is_u8 (labels n).
Proof. unfold labels, is_u8, as_u8. destruct (bytes_eqb n root_name); [reflexivity |]. apply N.mod_lt. discriminate. Qed.
Lemma v_sig_held nm ty signer : name_try_from nm = Some nm -> name_try_from signer = Some signer -> ty < 65536 -> Held (RR_RRSig (v_sig nm ty signer)).
Proof.
  intros A B C. unfold Held. cbn [typed_rr v_sig rs_name rs_ty rs_alg rs_labels rs_orig_ttl rs_expiration rs_inception rs_key_tag rs_key_name rs_signature].
  split; [exact A |]. split; [exact C |]. split; [reflexivity |]. split; [apply labels_u8 |]. repeat (split; [reflexivity || exact B |]). constructor.
Qed.
Lemma v_key_held z : name_try_from z = Some z -> Held (RR_DnsKey (v_key z)).
Proof. intros A. unfold Held. cbn [typed_rr v_key dk_name dk_flags dk_protocol dk_alg dk_pubkey]. split; [exact A |]. repeat (split; [reflexivity |]). repeat constructor. Qed.
Lemma v_ds_held z : name_try_from z = Some z -> Held (RR_DS (v_ds z)).
Proof. intros A. unfold Held. cbn [typed_rr v_ds ds_name ds_key_tag ds_alg ds_digest_type ds_digest]. split; [exact A |]. repeat (split; [reflexivity |]). repeat constructor. Qed.
Lemma nest_held n : (n <= 127)%nat -> Forall Held (nest n).
Proof.
  intros H. unfold nest. apply Forall_app. split.
  - constructor; [apply v_key_held; reflexivity |]. constructor; [apply v_sig_held; reflexivity |]. constructor; [held_one |]. constructor; [apply v_sig_held; reflexivity | constructor].
  - apply Forall_forall. intros r I. apply in_flat_map in I as (k & K & I). apply in_seq in K. assert (V : name_try_from (zn k) = Some (zn k)) by (apply zn_valid; lia).
    unfold v_zone_rrs in I. apply in_app_or in I as [I | I].
    + cbn [In] in I. destruct I as [<- | [<- | [<- | []]]]; [apply v_ds_held, V | apply v_key_held, V | apply v_sig_held; auto; reflexivity].
    + apply in_map_iff in I as (j & <- & J). apply in_seq in J. apply v_sig_held; [exact V | apply zn_valid; lia | reflexivity].
Qed.
Lemma nest_length n : (2 * List.length (nest n) = n * n + 7 * n + 8)%nat.
Proof.
  unfold nest. rewrite app_length. cbn [List.length].
  assert (G : (2 * List.length (flat_map v_zone_rrs (seq 1 n)) = n * n + 7 * n)%nat); [| lia].
  induction n as [| n IH]; [reflexivity |]. rewrite seq_S, flat_map_app, app_length. cbn [flat_map]. rewrite app_nil_r.
  assert (E : List.length (v_zone_rrs (1 + n)) = (4 + n)%nat) by (unfold v_zone_rrs; rewrite app_length, map_length, seq_length; cbn [List.length]; lia).
  rewrite E. lia.
Qed.
Lemma nest_ds n s : In (RR_RRSig s) (nest n) -> rs_ty s = 43 -> exists j k, (j < k <= n)%nat /\ s = v_sig (zn k) 43 (zn j).
Proof.
  intros I T. unfold nest in I. apply in_app_or in I as [I | I].
  - cbn [In w_a] in I. repeat (destruct I as [I | I]; [first [discriminate I | injection I as <-; discriminate T] |]). destruct I.
  - apply in_flat_map in I as (k & K & I). apply in_seq in K. unfold v_zone_rrs in I. apply in_app_or in I as [I | I].
    + cbn [In] in I. repeat (destruct I as [I | I]; [first [discriminate I | injection I as <-; discriminate T] |]). destruct I.
    + apply in_map_iff in I as (j & I & J). apply in_seq in J. injection I as <-. exists j, k. split; [lia | reflexivity].
Qed.
Definition nest_zones (n : nat) : list (list N) := map zn (seq 1 n).
Lemma nest_zones_ok n : NoDup (nest_zones n) /\ List.length (nest_zones n) = n.
Proof.
  unfold nest_zones. split; [| rewrite map_length, seq_length; reflexivity]. generalize (seq_NoDup n 1). induction 1 as [| x l NI ND IH]; [constructor |]. cbn [map]. constructor; [| exact IH].
  intros C. apply in_map_iff in C as (y & C1 & C2). apply zn_inj in C1. subst. contradiction.
Qed.
Lemma nest_no_self n s : In (RR_RRSig s) (nest n) /\ rs_ty s = 43 -> rs_name s <> rs_key_name s.
Proof. intros [I T]. destruct (nest_ds n s I T) as (j & k & H & ->). cbn [v_sig rs_name rs_key_name]. intros C. apply zn_inj in C. lia. Qed.
Lemma nest_in_zones n s : In (RR_RRSig s) (nest n) /\ rs_ty s = 43 -> In (rs_name s) (nest_zones n).
Proof. intros [I T]. destruct (nest_ds n s I T) as (j & k & H & ->). unfold nest_zones. cbn [v_sig rs_name]. apply in_map, in_seq. lia. Qed.
Lemma nest_root_ds n : (1 <= n)%nat -> In (RR_RRSig (v_sig (zn 1) 43 [46])) (nest n).
Proof.
  intros H. unfold nest. apply in_or_app. right. apply in_flat_map. exists 1%nat. split; [apply in_seq; lia |]. unfold v_zone_rrs. apply in_or_app. right. cbn. auto.
Qed.

Lemma linear_visits_refuted : ~ (forall e inp zones s0, Forall Held inp ->
  (forall s, In (RR_RRSig s) inp /\ rs_ty s = 43 -> rs_name s <> rs_key_name s) ->
  (forall s, In (RR_RRSig s) inp /\ rs_ty s = 43 -> In (rs_name s) zones) ->
  In (RR_RRSig s0) inp /\ rs_ty s0 = 43 -> rs_key_name s0 = [46] -> supported_alg (rs_alg s0) ->
  verify_rr_stream e false (S (List.length zones)) inp <> Loop).
Proof.
  intros H. apply (H toy_env (nest 2) (nest_zones 2) (v_sig (zn 1) 43 [46])).
  - apply nest_held. lia.
  - apply nest_no_self.
  - apply nest_in_zones.
  - split; [apply nest_root_ds; lia | reflexivity].
  - reflexivity.
  - cbn. auto.
  - vm_compute. reflexivity.
Qed.
Lemma visits_exponential n : (1 <= n <= 127)%nat ->
  Forall Held (nest n) /\ (2 * List.length (nest n) = n * n + 7 * n + 8)%nat /\
  verify_rr_stream toy_env false (2 ^ n - 1) (nest n) = Loop /\ exists v, verify_rr_stream toy_env false (2 ^ n) (nest n) = Ok v /\ vr_rrs v = [w_a "x."].
Proof. intros H. split; [apply nest_held; lia |]. split; [apply nest_length |]. split; [apply nest_loops | apply nest_ends; lia]. Qed.
