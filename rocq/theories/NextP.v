(** When the octets of an NSEC record mean only one record. *)
From Verif Require Import Base BaseP NameM WireM RRM NameSpec NameP WireSpec WireP BitmapSpec BitmapP RecSpec RecP RecP2 CodecSpec QueryP HeldP ValSpec ValP ValP3 SecP PubSpec NextSpec.
From Coq Require Import PeanoNat.
Local Open Scope N_scope.

Lemma enc_cons w b x t : enc_blocks ((w, b ++ [x]) :: t) = w :: N.of_nat (S (length b)) :: b ++ x :: enc_blocks t.
Proof. unfold enc_blocks. cbn [flat_map fst snd app]. rewrite app_length, <- !app_assoc. cbn [length app]. rewrite Nat.add_1_r. reflexivity. Qed.
Lemma wn_cons l ls : wire_name (l :: ls) = N.of_nat (length l) :: l ++ wire_name ls.
Proof. unfold wire_name. rewrite wl_cons. cbn [app]. rewrite <- app_assoc. reflexivity. Qed.
Lemma label_first c l : label_ok (c :: l) -> 33 <= c.
Proof. intros [_ H]. inversion H as [| ? ? (H1 & _) _]. lia. Qed.

Lemma two_readings ls : forall L B bits, Forall (fun l : list N => l <> []) ls -> canonical_bitmap bits -> Forall label_ok L ->
  wire_name L ++ B = wire_name ls ++ bits -> (L = ls /\ B = bits) \/ (L = ls ++ [[]] /\ bits = 0 :: B).
Proof.
  induction ls as [| l0 ls IH]; intros L B bits NE CB OK E.
  - cbn [wire_name wire_labels flat_map app] in E. destruct L as [| l L]; [cbn in E; injection E as ->; left; auto |].
    rewrite wn_cons in E. cbn [app] in E. injection E as E0 E. destruct l as [| c l]; [| cbn in E0; lia]. cbn [app] in E.
    destruct L as [| l L]; [cbn in E; right; auto |]. exfalso. rewrite wn_cons in E. cbn [app] in E.
    inversion OK as [| ? ? _ OK1]; subst. inversion OK1 as [| ? ? OL OK2]; subst.
    destruct CB as (bl & CF & EB). inversion CF as [| w w' b x t W1 W2 W3 W4 CF' [Ew Ebl]]; subst; [discriminate EB |]. rewrite enc_cons in EB. injection EB as E1 E2.
    destruct l as [| c l]; [| cbn [app] in E2; injection E2 as -> _; apply label_first in OL; lia]. cbn [app] in E2. cbn [length] in E1.
    destruct L as [| l L]; [cbn in E2; injection E2 as E2 _; lia |]. rewrite wn_cons in E2. cbn [app] in E2. injection E2 as E2 E3.
    rewrite <- app_assoc in E3. replace (b ++ x :: enc_blocks t) with ((b ++ [x]) ++ enc_blocks t) in E3 by (rewrite <- app_assoc; reflexivity).
    apply app_inv_len in E3; [| unfold len; rewrite app_length; cbn [length]; lia]. destruct E3 as [_ E3].
    inversion CF' as [| v w2 b2 x2 t2 V1 V2 V3 V4 _ [Ev Et]]; subst; [destruct L; [discriminate E3 | rewrite wn_cons in E3; discriminate E3] |]. rewrite enc_cons in E3.
    destruct L as [| [| c l3] L]; [cbn in E3; injection E3 as E3 _; lia | rewrite wn_cons in E3; cbn in E3; injection E3 as E3 _; lia |].
    rewrite wn_cons in E3. cbn [app] in E3. injection E3 as _ E3 _. inversion OK2 as [| ? ? _ OK3]; subst. inversion OK3 as [| ? ? OL3 _]; subst. apply label_first in OL3. lia.
  - rewrite (wn_cons l0) in E. inversion NE as [| ? ? N0 NE']; subst. destruct L as [| l L].
    + cbn in E. injection E as E _. destruct l0; [congruence | cbn in E; lia].
    + rewrite wn_cons in E. cbn [app] in E. injection E as E1 E2. rewrite <- !app_assoc in E2. apply app_inv_len in E2; [| unfold len; exact E1]. destruct E2 as [-> E2].
      inversion OK; subst. destruct (IH L B bits NE' CB ltac:(assumption) E2) as [[-> ->] | [-> ->]]; auto.
Qed.

(** ** The bits of the first octet *)
Lemma first_octet c : 1 <= c <= 32 -> N.testbit c 4 = false -> N.testbit c 3 = false -> N.testbit c 0 = false -> (N.testbit c 1 = true -> N.testbit c 5 = true) -> c = 4 \/ c = 32.
Proof.
  intros H. assert (I : In (N.to_nat c) (seq 1 32)) by (apply in_seq; lia). assert (C : c = N.of_nat (N.to_nat c)) by (symmetry; apply N2Nat.id). rewrite C. revert I. generalize (N.to_nat c). clear.
  intros n I. cbn [seq In] in I. repeat match type of I with _ \/ _ => destruct I as [<- | I] end; try contradiction I; vm_compute; intros A B D F; try discriminate; auto; specialize (F eq_refl); discriminate.
Qed.
Lemma some_bit x : x <> 0 -> x < 256 -> exists k, k <= 7 /\ N.testbit x (7 - k) = true.
Proof.
  intros NZ L. exists (7 - N.log2 x). assert (LG : N.log2 x < 8) by (apply N.log2_lt_pow2; [lia | exact L]). split; [lia |].
  replace (7 - (7 - N.log2 x)) with (N.log2 x) by lia. apply N.bit_log2. exact NZ.
Qed.
Lemma octet_type mask i x : nth i mask 0 = x -> x <> 0 -> x < 256 -> exists t, 8 * N.of_nat i <= t <= 8 * N.of_nat i + 7 /\ has_type mask t.
Proof.
  intros E NZ L. destruct (some_bit x NZ L) as (k & K1 & K2). exists (8 * N.of_nat i + k). split; [lia |]. unfold has_type.
  replace ((8 * N.of_nat i + k) / 8) with (N.of_nat i) by (apply (N.div_unique _ 8 _ k); lia). replace ((8 * N.of_nat i + k) mod 8) with k by (apply (N.mod_unique _ 8 (N.of_nat i)); lia).
  rewrite Nat2N.id, E. exact K2.
Qed.
Lemma first_block b t i : canonical_from 1 t -> (i < 32)%nat -> octet_at ((0, b) :: t) i 0 = nth i b 0.
Proof.
  intros CF L. cbn [octet_at fst snd]. rewrite octet_at_skip; [| apply (covers_before 1); [exact CF | cbn; lia]].
  unfold covers. cbn [fst snd N.to_nat]. rewrite Nat.mul_0_r. cbn [Nat.leb Nat.add andb]. rewrite Nat.sub_0_r. destruct (Nat.ltb_spec i (length b)); [reflexivity |]. symmetry. apply nth_overflow. lia.
Qed.
Lemma second_block b w2 b2 x2 t : canonical_from 1 ((w2, b2 ++ [x2]) :: t) -> (length b <= 32)%nat -> octet_at ((0, b) :: (w2, b2 ++ [x2]) :: t) (32 * N.to_nat w2 + length b2) 0 = x2.
Proof.
  intros CF L. inversion CF as [| v w b' x t' V1 V2 V3 V4 CF' [Ev Et]]. apply app_inj_tail in H0 as [-> ->]. subst. cbn [octet_at fst snd].
  rewrite octet_at_skip; [| apply (covers_before (w2 + 1)); [exact CF' | lia]].
  unfold covers. cbn [fst snd]. rewrite app_length. cbn [length].
  destruct (Nat.leb_spec (32 * N.to_nat w2) (32 * N.to_nat w2 + length b2)); [| lia]. destruct (Nat.ltb_spec (32 * N.to_nat w2 + length b2) (32 * N.to_nat w2 + (length b2 + 1))); [| lia]. cbn [andb].
  rewrite Nat.add_comm, Nat.add_sub, app_nth2, Nat.sub_diag by lia. reflexivity.
Qed.

Lemma mask_octets bits mask bl : canonical_from 0 bl -> bits = enc_blocks bl -> BitmapEnc bits mask -> forall i, (i < N.to_nat 8192)%nat -> nth i mask 0 = octet_at bl i 0.
Proof.
  intros CF EB BE i Hi. assert (BE' : BitmapEnc bits (map (fun i => octet_at bl i 0) (seq 0 (N.to_nat 8192)))).
  { exists bl. split; [exact EB |]. split; [eapply canonical_fits; exact CF |]. split; [rewrite map_length, seq_length; reflexivity |]. intros j Hj.
    rewrite (nth_indep _ 0 (octet_at bl 0 0)) by (rewrite map_length, seq_length; exact Hj).
    change (octet_at bl 0 0) with ((fun i => octet_at bl i 0) 0%nat). rewrite map_nth, seq_nth by exact Hj. reflexivity. }
  rewrite (bitmap_fun _ _ _ BE BE'). rewrite (nth_indep _ 0 (octet_at bl 0 0)) by (rewrite map_length, seq_length; exact Hi).
  change (octet_at bl 0 0) with ((fun i => octet_at bl i 0) 0%nat). rewrite map_nth, seq_nth by exact Hi. reflexivity.
Qed.
Lemma nth_app_l (a b c : list N) d n : a ++ b = c ++ d -> (n < length a)%nat -> (n < length c)%nat -> nth n a 0 = nth n c 0.
Proof. intros E A C. rewrite <- (app_nth1 a b 0 A), E, app_nth1 by exact C. reflexivity. Qed.

Lemma ordinary_bits bits mask B : canonical_bitmap bits -> BitmapEnc bits mask -> is_bytes bits -> OrdinaryTypes (has_type mask) -> canonical_bitmap B -> bits = 0 :: B -> False.
Proof.
  intros (bl & CF & EB) BE IB (O47 & O3 & O4 & O7 & O6 & O5 & O2) (bl' & CF' & EB') E.
  pose proof (mask_octets _ _ _ CF EB BE) as MASK. unfold is_bytes in IB. rewrite Forall_forall in IB.
  inversion CF as [| w w' b x t W1 W2 W3 W4 CF1 [Ew Ebl]]; subst bl; [rewrite E in EB; discriminate EB |]. subst w.
  rewrite enc_cons in EB. rewrite E in EB. injection EB as <- EB. cbn [N.add] in CF1. change (0 + 1) with 1 in CF1.
  set (o := b ++ [x]) in *. assert (LO : length o = S (length b)) by (unfold o; rewrite app_length; cbn; lia).
  assert (EO : b ++ x :: enc_blocks t = o ++ enc_blocks t) by (unfold o; rewrite <- app_assoc; reflexivity). rewrite EO in EB.
  assert (OCT : forall i, (i < 32)%nat -> nth i mask 0 = nth i o 0) by (intros i Hi; rewrite MASK by lia; apply first_block; [exact CF1 | exact Hi]).
  assert (L6 : (6 <= length o)%nat).
  { destruct (Nat.lt_ge_cases (length o) 6) as [L | L]; [exfalso | exact L]. unfold has_type in O47. change (N.to_nat (47 / 8)) with 5%nat in O47. rewrite OCT, nth_overflow in O47 by lia. discriminate O47. }
  inversion CF' as [| w w2 b2 x2 t2 V1 V2 V3 V4 CF2 [Ew Ebl]]; subst bl'; [rewrite EB' in EB; discriminate EB |]. subst w.
  rewrite enc_cons in EB'. rewrite EB' in EB. injection EB as EW EB. destruct o as [| c o'] eqn:EOO; [cbn in L6; lia |]. cbn [app] in EB. injection EB as EC EB.
  assert (E2 : b2 ++ x2 :: enc_blocks t2 = (b2 ++ [x2]) ++ enc_blocks t2) by (rewrite <- app_assoc; reflexivity).
  assert (TY : forall k, k <= 7 -> (has_type mask k <-> N.testbit c (7 - k) = true)).
  { intros k Hk. unfold has_type. rewrite N.div_small, N.mod_small by lia. rewrite OCT by (cbn; lia). reflexivity. }
  assert (C1 : c = 4 \/ c = 32).
  { apply first_octet; [lia | | | |].
    - destruct (N.testbit c 4) eqn:T; [exfalso; apply O3, TY; [lia | exact T] | reflexivity].
    - destruct (N.testbit c 3) eqn:T; [exfalso; apply O4, TY; [lia | exact T] | reflexivity].
    - destruct (N.testbit c 0) eqn:T; [exfalso; apply O7, TY; [lia | exact T] | reflexivity].
    - intros T. apply (TY 2); [lia |]. apply O6, TY; [lia | exact T]. }
  destruct C1 as [-> | ->].
  - assert (X : nth 4 (4 :: o') 0 = x2).
    { cbn [nth]. cbn [length] in L6. assert (LB : length b2 = 3%nat) by lia.
      rewrite E2 in EB. pose proof (nth_app_l (b2 ++ [x2]) (enc_blocks t2) o' (enc_blocks t) 3) as Q. rewrite app_length in Q. cbn [length] in Q.
      rewrite <- Q; [rewrite <- LB, app_nth2, Nat.sub_diag by lia; reflexivity | exact EB | lia | lia]. }
    assert (IX : x2 < 256). { apply IB. rewrite E, EB', E2. right. right. right. apply in_or_app. left. apply in_or_app. right. left. reflexivity. }
    destruct (octet_type mask 4 x2 ltac:(rewrite OCT by lia; exact X) V4 IX) as (k & K1 & K2). apply (O5 (proj2 (TY 5 ltac:(lia)) eq_refl) k); [lia | exact K2].
  - assert (LB : length b2 = 31%nat) by lia. assert (S2 : has_type mask 2) by (apply TY; [lia | reflexivity]). assert (S6 : ~ has_type mask 6) by (intros Z; apply TY in Z; [discriminate Z | lia]).
    inversion CF1 as [| v w3 b3 x3 t3 Z1 Z2 Z3 Z4 CF3 [Ev Et]]; subst t.
    + apply (f_equal (@length N)) in EB. rewrite !app_length in EB. cbn [length] in EB, LO. change (enc_blocks []) with (@nil N) in EB. cbn [length] in EB. lia.
    + subst v. assert (X : nth (32 * N.to_nat w3 + length b3) mask 0 = x3). { rewrite MASK by lia. apply second_block; [exact CF1 | lia]. }
      assert (IX : x3 < 256). { apply IB. rewrite E. right. rewrite EB'. rewrite EB. rewrite enc_cons. right. right. apply in_or_app. right. right. right. apply in_or_app. right. left. reflexivity. }
      destruct (octet_type mask _ x3 X Z4 IX) as (k & K1 & K2). apply (O2 S2 S6 k); [lia | exact K2].
Qed.

(** ** Records *)
Lemma canon_bytes B mask : canonical_bitmap B -> BitmapEnc B mask -> is_mask mask -> is_bytes B.
Proof. intros C BE M. apply read_bitmap_spec in BE. rewrite <- (canonical_written _ _ C BE). apply is_bytes_ok, write_bitmap_bytes, M. Qed.
Lemma octets_two next mask next' mask' d : proper_name next -> NsecOctets next mask d -> NsecOctets next' mask' d ->
  (next' = next /\ mask' = mask) \/
  (next' = next ++ [46] /\ exists B, canonical_bitmap (0 :: B) /\ BitmapEnc (0 :: B) mask /\ canonical_bitmap B /\ BitmapEnc B mask').
Proof.
  intros (ms & P & EN & _) (ls & bits & L & C & BE & ->) (ls' & bits' & L' & C' & BE' & E). pose proof P as [P' _].
  assert (A1 : Forall label_ok ms) by (eapply Forall_impl; [| exact P']; cbn; tauto). assert (A2 : Forall (fun l => l <> []) ms) by (eapply Forall_impl; [| exact P']; cbn; tauto).
  assert (ls = ms) as -> by (apply (labelsof_inj next); [exact L | rewrite EN; apply proper_labelsof; assumption]).
  destruct (two_readings ms ls' bits' bits A2 C ltac:(apply L') (eq_sym E)) as [[-> ->] | [-> ->]].
  - left. split; [destruct L as (-> & _), L' as (-> & _); reflexivity | eapply bitmap_fun; eassumption].
  - right. split; [| exists bits'; auto]. destruct L as (-> & _), L' as (-> & _ & NE). destruct ms as [| m ms]; [cbn in NE; congruence |].
    cbn [dotted app]. unfold dots. change (m :: ms ++ [[]]) with ((m :: ms) ++ [[]]). rewrite map_app, concat_app. reflexivity.
Qed.
Lemma octets_one next mask next' mask' d : proper_name next -> is_mask mask' -> OrdinaryTypes (has_type mask) -> NsecOctets next mask d -> NsecOctets next' mask' d -> next' = next /\ mask' = mask.
Proof.
  intros P M O A B. destruct (octets_two _ _ _ _ _ P A B) as [H | (_ & X & C1 & C2 & C3 & C4)]; [exact H | exfalso].
  apply (ordinary_bits (0 :: X) mask X); auto. constructor; [reflexivity | exact (canon_bytes _ _ C3 C4 M)].
Qed.
Lemma name_written t : valid_name t -> exists ls, LabelsOf t ls /\ write_name t = wire_name ls /\ name_len t = length_of (write_name t) /\ name_len t <= 256.
Proof.
  intros V. destruct (held_name_len _ V) as [NL1 NL2]. destruct (valid_labels _ V) as (ls & L1 & _). assert (W := labels_wire _ _ L1 (valid_lower _ V)). exists ls. split; [exact L1 |]. split; [exact W |].
  split; [| lia]. rewrite W. destruct L1 as (-> & A & B). destruct ls as [| l ls]; [reflexivity |]. change (dotted (l :: ls)) with (dots (l :: ls)) in *.
  rewrite name_len_wire_gen; [reflexivity | | exact A | exact B | discriminate]. apply name_try_from_spec in V as [(ns & _ & _ & _ & V) _]. exact V.
Qed.
Lemma nsec_octets n : Held (RR_NSec n) -> exists d, write_data (RR_NSec n) = u16 (length_of d) ++ d /\ length_of d <= 65535 /\ NsecOctets (ns_next n) (ns_types n) d.
Proof.
  intros (_ & V & M). destruct (name_written _ V) as (ls & L & W & NL & N256). destruct M as [ML MB]. destruct (bitmap_len_ok _ ML) as [BL B8].
  exists (write_name (ns_next n) ++ write_nsec_types_bitmap (ns_types n)). unfold length_of, len in *. rewrite app_length, Nat2N.inj_add. split; [| split].
  - cbn [write_data]. unfold nsec_write. rewrite NL, BL. unfold as_u16. rewrite N.mod_small by lia. rewrite be16_u16 by lia. reflexivity.
  - lia.
  - exists ls, (write_nsec_types_bitmap (ns_types n)). split; [exact L |]. destruct (write_bitmap_canonical _ ML) as (bl & C & E & _). split; [exists bl; auto |]. split; [apply write_bitmap_enc; exact ML | rewrite W; reflexivity].
Qed.
Lemma data_octets n d : Held (RR_NSec n) -> length_of d <= 65535 -> write_data (RR_NSec n) = u16 (length_of d) ++ d <-> NsecOctets (ns_next n) (ns_types n) d.
Proof.
  intros H HL. destruct (nsec_octets n H) as (d' & E & L & O). split.
  - intros E'. rewrite E in E'. apply u16_app_inv in E' as [_ ->]. exact O.
  - intros O'. rewrite E. assert (d' = d) as -> by (destruct O as (l1 & b1 & A1 & A2 & A3 & ->), O' as (l2 & b2 & B1 & B2 & B3 & ->); rewrite (labelsof_inj _ _ _ A1 B1); f_equal;
      apply read_bitmap_spec in A3, B3; rewrite <- (canonical_written _ _ A2 A3), <- (canonical_written _ _ B2 B3); reflexivity). reflexivity.
Qed.
Lemma records_one n m : Held (RR_NSec n) -> proper_name (ns_next n) -> OrdinaryTypes (has_type (ns_types n)) -> Held (RR_NSec m) ->
  write_data (RR_NSec m) = write_data (RR_NSec n) -> ns_next m = ns_next n /\ ns_types m = ns_types n.
Proof.
  intros H P O H' E. destruct (nsec_octets n H) as (d & E1 & L & D). rewrite E1 in E. apply (data_octets m d H' L) in E. eapply octets_one; eauto. apply H'.
Qed.
(** What a zone signs, of which the next name may not be one that this library can hold. *)
Lemma ordinary_next x d X Y : Held (RR_NSec x) -> OrdinaryNsec d -> length_of d <= 65535 -> write_data (RR_NSec x) ++ X = u16 (length_of d) ++ d ++ Y -> proper_name (ns_next x).
Proof.
  intros H (ls & bits & mask & LG & C & BE & O & ->) HL E. destruct (nsec_octets x H) as (d & E1 & L & (L' & bits' & D1 & D2 & D3 & ->)). rewrite E1, <- app_assoc in E. apply u16_app_inv in E as [E2 E]. apply app_inv_len in E; [| exact E2]. destruct E as [E _].
  destruct LG as [LG LL]. assert (NE : Forall (fun l : list N => l <> []) ls) by (eapply Forall_impl; [| exact LG]; cbn; tauto).
  destruct (two_readings ls L' bits' bits NE C ltac:(apply D1) E) as [[-> ->] | [-> ->]].
  - destruct D1 as (EN & OK & _). exists ls. split; [split |].
    + rewrite Forall_forall in NE, OK |- *. auto.
    + rewrite <- EN. destruct H as (_ & V & _). apply name_try_from_spec in V as [(ms & _ & _ & _ & V) _]. exact V.
    + split; [exact EN | apply valid_lower, H].
  - exfalso. apply (ordinary_bits (0 :: bits') mask bits'); auto. constructor; [reflexivity | apply (canon_bytes _ _ D2 D3), H].
Qed.

(** ** Lists of types *)
Definition ordinary_list (ts : list N) : bool :=
  let has t := existsb (N.eqb t) ts in
  has 47 && negb (has 3) && negb (has 4) && negb (has 7) && (negb (has 6) || has 2) &&
  (negb (has 5) || forallb (fun t => negb ((32 <=? t) && (t <=? 39))) ts) && (negb (has 2) || has 6 || forallb (fun t => t <? 256) ts).
Lemma ordinary_list_ok ts : Forall (fun t => t < 65536) ts -> ordinary_list ts = true -> OrdinaryTypes (has_type (mask_from_types ts)).
Proof.
  intros F H. assert (Q : forall t, has_type (mask_from_types ts) t <-> In t ts) by (intros t; rewrite <- has_type_spec; exact (proj2 (from_types_spec ts t F))).
  assert (HX : forall t, existsb (N.eqb t) ts = true <-> In t ts) by (intros t; rewrite existsb_exists; split; [intros (x & A & B); apply N.eqb_eq in B; subst; exact A | intros A; exists t; split; [exact A | apply N.eqb_refl]]).
  assert (HN : forall t, existsb (N.eqb t) ts = false <-> ~ In t ts) by (intros t; rewrite <- HX; destruct (existsb (N.eqb t) ts); split; congruence).
  unfold ordinary_list in H. repeat (apply andb_true_iff in H; destruct H as [H ?]). unfold OrdinaryTypes. rewrite !Q.
  repeat match goal with K : negb _ = true |- _ => apply negb_true_iff, HN in K | K : existsb _ _ = true |- _ => apply HX in K end.
  split; [assumption |]. split; [assumption |]. split; [assumption |]. split; [assumption |]. split; [| split].
  - intros I. match goal with K : negb (existsb (N.eqb 6) ts) || _ = true |- _ => apply orb_true_iff in K as [K | K] end; [apply negb_true_iff, HN in H2; contradiction | apply HX; exact H2].
  - intros I t Ht. rewrite Q. intros J. match goal with K : negb (existsb (N.eqb 5) ts) || _ = true |- _ => apply orb_true_iff in K as [K | K]; [apply negb_true_iff, HN in K; contradiction |]; rewrite forallb_forall in K; specialize (K t J); apply negb_true_iff, andb_false_iff in K; destruct K as [K | K]; apply N.leb_gt in K; lia end.
  - intros I I6 t Ht. rewrite Q. intros J. match goal with K : negb (existsb (N.eqb 2) ts) || _ || _ = true |- _ => apply orb_true_iff in K as [K | K]; [apply orb_true_iff in K as [K | K]; [apply negb_true_iff, HN in K; contradiction | apply HX in K; contradiction] |]; rewrite forallb_forall in K; specialize (K t J); apply N.ltb_lt in K; lia end.
Qed.
Lemma written_ordinary nm nx ts ls : Forall (fun t => t < 65536) ts -> ordinary_list ts = true -> LegalName ls -> Held (RR_NSec {| ns_name := nm; ns_next := nx; ns_types := mask_from_types ts |}) -> LabelsOf nx ls ->
  OrdinaryNsec (skipn 2 (write_data (RR_NSec {| ns_name := nm; ns_next := nx; ns_types := mask_from_types ts |}))).
Proof.
  intros F O L H LO. destruct (nsec_octets _ H) as (d & E & _ & ls' & bits & L' & C & B & ->). cbn [ns_next ns_types] in *. rewrite E. unfold u16. cbn [app skipn].
  rewrite (labelsof_inj _ _ _ L' LO). exists ls, bits, (mask_from_types ts). split; [exact L |]. split; [exact C |]. split; [exact B |]. split; [apply ordinary_list_ok; assumption | reflexivity].
Qed.
