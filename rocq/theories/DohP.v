(** Base64url, and runs of the DNS-over-HTTPS lookup (C65). *)
From Verif Require Import Base BaseP NameSpec NameM NameP WireM WireSpec RRM SerM RecSpec ValSpec ValM CodecSpec CodecP QueryM QuerySpec QBufP QueryP QueryP2 QueryP3 QueryP4 JsonM WasmM WasmSpec WasmP DohM DohSpec.
From Coq Require Import String Lia.
Local Open Scope N_scope.

(** ** Base64url *)
Definition url_char (v : N) : N := match replace_all 61 [] (replace_all 47 [95] (replace_all 43 [45] [b64_char v])) with [c] => c | _ => 0 end.
Definition url_digitb (c v : N) : bool :=
  ((65 <=? c) && (c <=? 90) && (v =? c - 65)) || ((97 <=? c) && (c <=? 122) && (v =? c - 71)) || ((48 <=? c) && (c <=? 57) && (v =? c + 4))
  || ((c =? 45) && (v =? 62)) || ((c =? 95) && (v =? 63)).
Lemma url_digitb_spec c v : url_digitb c v = true -> url_digit c v.
Proof.
  unfold url_digitb, url_digit. rewrite !orb_true_iff, !andb_true_iff, !N.leb_le, !N.eqb_eq. tauto.
Qed.
Lemma url_char_digit v : v < 64 -> url_digit (url_char v) v.
Proof. intros H. apply url_digitb_spec. revert v H. apply (sweep1 (fun v => url_digitb (url_char v) v) 64). vm_compute. reflexivity. Qed.
Lemma replace_cons c r x l : replace_all c r (x :: l) = replace_all c r [x] ++ replace_all c r l.
Proof. unfold replace_all. cbn [flat_map]. rewrite app_nil_r. reflexivity. Qed.
Lemma replace_app c r a b : replace_all c r (a ++ b) = replace_all c r a ++ replace_all c r b.
Proof. apply flat_map_app. Qed.
Definition subst_all (l : list N) := replace_all 61 [] (replace_all 47 [95] (replace_all 43 [45] l)).
Lemma subst_cons x l : subst_all (x :: l) = subst_all [x] ++ subst_all l.
Proof. unfold subst_all. rewrite (replace_cons 43), !replace_app. reflexivity. Qed.
Lemma subst_char v l : v < 64 -> subst_all (b64_char v :: l) = url_char v :: subst_all l.
Proof.
  intros H. rewrite subst_cons. change (url_char v :: subst_all l) with ([url_char v] ++ subst_all l). f_equal.
  apply bytes_eqb_eq. revert v H. apply (sweep1 (fun v => bytes_eqb (subst_all [b64_char v]) [url_char v]) 64). vm_compute. reflexivity.
Qed.
Lemma bits_8 a : a < 256 -> bits_of 8 a = bits_of 6 (a / 4) ++ bits_of 2 (a mod 4) /\ bits_of 8 a = bits_of 4 (a / 16) ++ bits_of 4 (a mod 16) /\
  bits_of 8 a = bits_of 2 (a / 64) ++ bits_of 6 (a mod 64).
Proof.
  intros H. repeat split; apply bleqb_eq; revert a H.
  - apply (sweep1 (fun a => bleqb (bits_of 8 a) (bits_of 6 (a / 4) ++ bits_of 2 (a mod 4))) 256). vm_compute. reflexivity.
  - apply (sweep1 (fun a => bleqb (bits_of 8 a) (bits_of 4 (a / 16) ++ bits_of 4 (a mod 16))) 256). vm_compute. reflexivity.
  - apply (sweep1 (fun a => bleqb (bits_of 8 a) (bits_of 2 (a / 64) ++ bits_of 6 (a mod 64))) 256). vm_compute. reflexivity.
Qed.
Lemma bits_24 a b : a < 4 -> b < 16 -> bits_of 6 (a * 16 + b) = bits_of 2 a ++ bits_of 4 b.
Proof.
  intros Ha Hb. apply bleqb_eq. revert b Hb. apply (sweep1 (fun b => bleqb (bits_of 6 (a * 16 + b)) (bits_of 2 a ++ bits_of 4 b)) 16).
  revert a Ha. apply (sweep1 (fun a => forallb (fun b => bleqb (bits_of 6 (a * 16 + b)) (bits_of 2 a ++ bits_of 4 b)) (rangeN 16)) 4). vm_compute. reflexivity.
Qed.
Lemma bits_42 a b : a < 16 -> b < 4 -> bits_of 6 (a * 4 + b) = bits_of 4 a ++ bits_of 2 b.
Proof.
  intros Ha Hb. apply bleqb_eq. revert b Hb. apply (sweep1 (fun b => bleqb (bits_of 6 (a * 4 + b)) (bits_of 4 a ++ bits_of 2 b)) 4).
  revert a Ha. apply (sweep1 (fun a => forallb (fun b => bleqb (bits_of 6 (a * 4 + b)) (bits_of 4 a ++ bits_of 2 b)) (rangeN 4)) 16). vm_compute. reflexivity.
Qed.
Lemma div_small a k m : a < 256 -> 256 = k * m -> 0 < k -> a / k < m.
Proof. intros A K P. apply N.div_lt_upper_bound; lia. Qed.

Lemma b64url_values : forall n q, (List.length q <= n)%nat -> is_bytes q -> exists values pad, Forall (fun v => v < 64) values /\ subst_all (btoa q) = map url_char values /\
  (pad < 6)%nat /\ flat_map (bits_of 6) values = flat_map (bits_of 8) q ++ repeat false pad.
Proof.
  induction n as [|n IH]; intros q L B.
  { destruct q; [|cbn in L; lia]. exists [], 0%nat. repeat split; [constructor | lia]. }
  destruct q as [|a [|b [|c t]]].
  - exists [], 0%nat. repeat split; [constructor | lia].
  - inversion_clear B as [|? ? HA _]. pose proof (N.mod_lt a 4 ltac:(lia)) as M. pose proof (div_small a 4 64 HA eq_refl eq_refl) as D.
    exists [a / 4; a mod 4 * 16], 4%nat. split; [repeat apply Forall_cons; try apply Forall_nil; lia|].
    split; [cbn [btoa map]; rewrite !subst_char by lia; reflexivity|]. split; [lia|]. cbn [flat_map]. rewrite app_nil_r.
    replace (a mod 4 * 16) with (a mod 4 * 16 + 0) by lia. rewrite bits_24 by lia. destruct (bits_8 a HA) as (E & _). rewrite E, <- !app_assoc. reflexivity.
  - inversion_clear B as [|? ? HA B']. inversion_clear B' as [|? ? HB _].
    pose proof (N.mod_lt a 4 ltac:(lia)). pose proof (N.mod_lt b 16 ltac:(lia)). pose proof (div_small a 4 64 HA eq_refl eq_refl). pose proof (div_small b 16 16 HB eq_refl eq_refl).
    exists [a / 4; a mod 4 * 16 + b / 16; b mod 16 * 4], 2%nat. split; [repeat apply Forall_cons; try apply Forall_nil; lia|].
    split; [cbn [btoa map]; rewrite !subst_char by lia; reflexivity|]. split; [lia|]. cbn [flat_map]. rewrite app_nil_r.
    replace (b mod 16 * 4) with (b mod 16 * 4 + 0) by lia. rewrite bits_24, bits_42 by lia. destruct (bits_8 a HA) as (E & _). destruct (bits_8 b HB) as (_ & F & _). rewrite E, F, <- !app_assoc. reflexivity.
  - inversion_clear B as [|? ? HA B']. inversion_clear B' as [|? ? HB B]. inversion_clear B as [|? ? HC BT].
    destruct (IH t) as (vs & pad & FV & EV & HP & EB); [cbn in L; lia|exact BT|].
    pose proof (N.mod_lt a 4 ltac:(lia)). pose proof (N.mod_lt b 16 ltac:(lia)). pose proof (N.mod_lt c 64 ltac:(lia)).
    pose proof (div_small a 4 64 HA eq_refl eq_refl). pose proof (div_small b 16 16 HB eq_refl eq_refl). pose proof (div_small c 64 4 HC eq_refl eq_refl).
    exists (a / 4 :: a mod 4 * 16 + b / 16 :: b mod 16 * 4 + c / 64 :: c mod 64 :: vs), pad.
    split; [repeat (apply Forall_cons; [lia|]); exact FV|].
    split; [cbn [btoa map]; rewrite !subst_char, EV by lia; reflexivity|]. split; [exact HP|]. cbn [flat_map]. rewrite EB, bits_24, bits_42 by lia.
    destruct (bits_8 a HA) as (E & _). destruct (bits_8 b HB) as (_ & F & _). destruct (bits_8 c HC) as (_ & _ & G). rewrite E, F, G, <- !app_assoc. reflexivity.
Qed.
Lemma b64url_spec q : is_bytes q -> Base64Url (b64url q) q.
Proof.
  intros B. destruct (b64url_values _ q (le_n _) B) as (vs & pad & FV & E & HP & EB). exists vs, pad. split; [|split; [exact HP|split; [exact B|exact EB]]].
  change (b64url q) with (subst_all (btoa q)). rewrite E. clear - FV. induction FV; cbn [map]; constructor; [apply url_char_digit; assumption | assumption].
Qed.
Lemma url_digit_fun c v v' : url_digit c v -> url_digit c v' -> v = v'.
Proof. unfold url_digit. lia. Qed.
Lemma url_digit_inj c c' v : url_digit c v -> url_digit c' v -> c = c'.
Proof. unfold url_digit. lia. Qed.
Lemma url_digit_lt c v : url_digit c v -> v < 64.
Proof. unfold url_digit. lia. Qed.
Lemma url_decodes t d d' : Base64Url t d -> Base64Url t d' -> d = d'.
Proof.
  intros (vs & p & F & P & B & E) (vs' & p' & F' & P' & B' & E'). assert (vs = vs') as <-.
  { clear - F F'. revert vs' F'. induction F; intros vs' F'; inversion F'; subst; [reflexivity|]. f_equal; [eapply url_digit_fun; eassumption | auto]. }
  rewrite E in E'. pose proof (f_equal (@List.length _) E') as LE. rewrite !app_length, !flat_bits_len, !repeat_length in LE. change (N.to_nat 8) with 8%nat in LE.
  assert (List.length d = List.length d') by lia.
  apply app_inv_len in E' as [E' _]; [|unfold len; rewrite !flat_bits_len; congruence]. apply flat_bits_inj; assumption.
Qed.
Lemma six_bits_inj a b : a < 64 -> b < 64 -> bits_of 6 a = bits_of 6 b -> a = b.
Proof.
  assert (H : forall a, a < 64 -> fold_left (fun s (x : bool) => 2 * s + (if x then 1 else 0)) (bits_of 6 a) 0 = a).
  { intros x Hx. apply N.eqb_eq. revert x Hx. apply (sweep1 (fun x => _ =? _) 64). vm_compute. reflexivity. }
  intros Ha Hb E. rewrite <- (H a), <- (H b), E by auto. reflexivity.
Qed.
Lemma url_unique t t' d : Base64Url t d -> Base64Url t' d -> t = t'.
Proof.
  intros (vs & p & F & P & B & E) (vs' & p' & F' & P' & _ & E').
  assert (L : List.length vs = List.length vs').
  { apply (f_equal (@List.length _)) in E, E'. rewrite app_length, !flat_bits_len, !repeat_length in E, E'. change (N.to_nat 8) with 8%nat in E, E'. change (N.to_nat 6) with 6%nat in E, E'. lia. }
  assert (p = p') as <-.
  { apply (f_equal (@List.length _)) in E, E'. rewrite app_length, !flat_bits_len, !repeat_length in E, E'. rewrite L in E. lia. }
  rewrite <- E' in E. clear E' P P' B. revert t t' vs' F F' L E. induction vs as [|v vs IH]; intros t t' vs' F F' L E.
  - destruct vs'; [|discriminate]. inversion F. inversion F'. reflexivity.
  - destruct vs' as [|v' vs']; [discriminate|]. inversion F as [|c ? tt ? C FT]; subst. inversion F' as [|c' ? tt' ? C' FT']; subst. cbn [flat_map] in E.
    apply app_inv_len in E as [E1 E2]; [|unfold len; rewrite !bits_len; reflexivity]. apply six_bits_inj in E1; [|eapply url_digit_lt; eassumption|eapply url_digit_lt; eassumption]. subst v'.
    f_equal; [eapply url_digit_inj; eassumption | eapply IH; eauto].
Qed.
Lemma get_url endpoint b : is_bytes b -> GetUrl endpoint b (doh_url endpoint b).
Proof. intros B. exists (b64url b). split; [apply b64url_spec; exact B | reflexivity]. Qed.
