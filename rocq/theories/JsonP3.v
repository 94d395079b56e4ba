(** The JSON of records against the specification (C51, C52). *)
From Verif Require Import Base BaseP NameSpec NameM NameP RRM RecSpec ValM ValSpec TextSpec TextP JsonM JsonSpec JsonP JsonP2.
From Coq Require Import Permutation String Lia.
Local Open Scope N_scope.

(** ** Records as lists of fields *)
Definition fld_text (f : field) : list N :=
  match f with
  | FText s => quoted s
  | FNum n => dec n
  | FBytes l => debug_bytes l
  | FHex l => quoted (hex l)
  | FTypes m => mask_json m
  | FContents l => if utf8_ok l && json_plain l then quoted l else debug_bytes l
  end.
Definition pair_text (kf : string * field) : list N := key (fst kf) ++ fld_text (snd kf).
Definition obj_text (fs : list (string * field)) : list N := bs "{" ++ sep_list (bs ",") (map pair_text fs) ++ bs "}".

Lemma rr_json_obj r : ~ is_rrsig r -> rr_json r = obj_text (fields r).
Proof.
  intros H. destruct r as [r|r|r|r|r|r|r|r|r|r|r|r]; try (exfalso; exact (H I));
  unfold obj_text, rr_json, a_json, aaaa_json, ns_json, txt_json, tlsa_json, cname_json, dname_json, dnskey_json, ds_json, nsec_json, nsec3_json, head;
  cbn [fields map sep_list]; unfold pair_text; cbn [fst snd fld_text]; repeat rewrite <- app_assoc; reflexivity.
Qed.

(** ** Types *)
Lemma rr_name_some ty m : ty_to_rr_name ty = Some m <-> In (ty, m) mnemonics.
Proof.
  unfold ty_to_rr_name, mnemonics. split.
  - repeat match goal with |- context [ty =? ?k] => destruct (N.eqb_spec ty k) as [-> |]; [intros E; injection E as <-; cbn; tauto |] end. discriminate.
  - intros H. repeat (destruct H as [H | H]; [injection H as <- <-; reflexivity |]). destruct H.
Qed.
Lemma rr_name_none ty : ty_to_rr_name ty = None <-> forall m, ~ In (ty, m) mnemonics.
Proof.
  split.
  - intros H m I. apply rr_name_some in I. congruence.
  - intros H. destruct (ty_to_rr_name ty) as [m |] eqn:E; [| reflexivity]. apply rr_name_some in E. destruct (H _ E).
Qed.

Lemma land_bit x k : (N.land x (N.shiftl 1 k) =? 0) = negb (N.testbit x k).
Proof.
  rewrite N.shiftl_1_l. destruct (N.eqb_spec (N.land x (2 ^ k)) 0) as [E | NE].
  - pose proof (N.land_spec x (2 ^ k) k) as L. rewrite E, N.bits_0, N.pow2_bits_true, Bool.andb_true_r in L. rewrite <- L. reflexivity.
  - destruct (N.testbit x k) eqn:T; [reflexivity |]. exfalso. apply NE. apply N.bits_inj_0. intros j. rewrite N.land_spec, N.pow2_bits_eqb.
    destruct (N.eqb_spec k j); [subst; rewrite T; reflexivity | apply Bool.andb_false_r].
Qed.
Lemma lor_shift i k : k < 8 -> N.lor (N.shiftl i 3) k = 8 * i + k.
Proof.
  intros H. rewrite N.shiftl_mul_pow2. change (2 ^ 3) with 8. rewrite <- N.lxor_lor, <- N.add_nocarry_lxor; try lia;
  (apply N.bits_inj_0; intros j; rewrite N.land_spec; change 8 with (2 ^ 3); destruct (N.lt_ge_cases j 3);
   [rewrite N.mul_pow2_bits_low by assumption; reflexivity |
    replace (N.testbit k j) with false; [apply Bool.andb_false_r |]; symmetry; destruct (N.eq_dec k 0) as [-> | NZ]; [apply N.bits_0 | apply N.bits_above_log2];
    apply N.lt_le_trans with 3; [apply N.log2_lt_pow2; [lia | exact H] | assumption]]).
Qed.

Definition byte_range (i : N) : list N := [8 * i + 7; 8 * i + 6; 8 * i + 5; 8 * i + 4; 8 * i + 3; 8 * i + 2; 8 * i + 1; 8 * i + 0].
Lemma mod_range i k : k < 8 -> (8 * i + k) mod 8 = k /\ (8 * i + k) / 8 = i.
Proof. intros H. split; symmetry; [apply N.mod_unique with i | apply N.div_unique with k]; lia. Qed.

Lemma byte_types_filter i m : byte_types i m = filter (fun t => N.testbit m (7 - t mod 8)) (byte_range i).
Proof.
  unfold byte_types, byte_range. cbn [filter flat_map]. rewrite !land_bit, !lor_shift by reflexivity.
  change (7 - 0) with 7. change (7 - 1) with 6. change (7 - 2) with 5. change (7 - 3) with 4. change (7 - 4) with 3. change (7 - 5) with 2. change (7 - 6) with 1. change (7 - 7) with 0.
  repeat match goal with |- context [(8 * i + ?k) mod 8] => replace ((8 * i + k) mod 8) with k by (symmetry; apply mod_range; reflexivity) end.
  change (7 - 0) with 7. change (7 - 1) with 6. change (7 - 2) with 5. change (7 - 3) with 4. change (7 - 4) with 3. change (7 - 5) with 2. change (7 - 6) with 1. change (7 - 7) with 0.
  rewrite !Bool.negb_involutive.
  repeat match goal with |- context [N.testbit m ?k] => destruct (N.testbit m k) end; cbn [app]; reflexivity.
Qed.

Lemma byte_range_in i t : In t (byte_range i) <-> t / 8 = i.
Proof.
  split.
  - intros H. cbn [byte_range In] in H.
    repeat (destruct H as [<- | H]; [apply mod_range; reflexivity |]). destruct H.
  - intros <-. pose proof (N.div_mod t 8 ltac:(lia)) as E. pose proof (N.mod_lt t 8 ltac:(lia)) as L. cbn [byte_range In].
    generalize dependent (t mod 8). generalize dependent (t / 8). intros. lia.
Qed.
Lemma byte_range_nodup i : NoDup (byte_range i).
Proof. unfold byte_range. repeat constructor; cbn [In]; lia. Qed.

Lemma mask_types_in m : forall i t, In t (mask_types i m) <-> i <= t / 8 /\ N.testbit (nth (N.to_nat (t / 8 - i)) m 0) (7 - t mod 8) = true.
Proof.
  induction m as [| x m IH]; intros i t; cbn [mask_types].
  - split; [intros [] |]. intros [_ H]. destruct (N.to_nat (t / 8 - i)); discriminate.
  - rewrite in_app_iff, IH.
    assert (B : In t (if x =? 0 then [] else byte_types i x) <-> t / 8 = i /\ N.testbit x (7 - t mod 8) = true).
    { destruct (N.eqb_spec x 0) as [-> | _].
      - split; [intros [] |]. intros [_ C]. rewrite N.bits_0 in C. discriminate.
      - rewrite byte_types_filter, filter_In, byte_range_in. reflexivity. }
    rewrite B. generalize (7 - t mod 8). intros k. generalize (t / 8). intros d. split.
    + intros [[-> T] | [L T]].
      * split; [lia |]. rewrite N.sub_diag. exact T.
      * split; [lia |]. replace (N.to_nat (d - i)) with (S (N.to_nat (d - (i + 1)))) by lia. exact T.
    + intros [L T]. destruct (N.eq_dec d i) as [-> | NE].
      * left. rewrite N.sub_diag in T. auto.
      * right. split; [lia |]. replace (N.to_nat (d - i)) with (S (N.to_nat (d - (i + 1)))) in T by lia. exact T.
Qed.
Lemma mask_types_nodup m : forall i, NoDup (mask_types i m).
Proof.
  induction m as [| x m IH]; intros i; cbn [mask_types]; [constructor |].
  assert (A : forall l, NoDup l -> (forall t, In t l -> t / 8 = i) -> NoDup (l ++ mask_types (i + 1) m)).
  { induction l as [| y l IL]; intros ND HL; [apply IH |]. inversion ND; subst. cbn [app]. constructor.
    - rewrite in_app_iff. intros [C | C]; [contradiction |]. apply mask_types_in in C as [C _]. rewrite (HL y (or_introl eq_refl)) in C. lia.
    - apply IL; [assumption |]. intros. apply HL. right. assumption. }
  apply A.
  - destruct (x =? 0); [constructor |]. rewrite byte_types_filter. apply NoDup_filter, byte_range_nodup.
  - intros t. destruct (x =? 0); [intros [] |]. rewrite byte_types_filter, filter_In, byte_range_in. tauto.
Qed.
Lemma mask_types_spec m t : In t (mask_types 0 m) <-> type_in m t.
Proof. rewrite mask_types_in, N.sub_0_r. unfold type_in. split; [tauto |]. intros H. split; [apply N.le_0_l | exact H]. Qed.

(** ** Derivations *)
Lemma decimal_number n : Number (dec n).
Proof.
  destruct (dec_decimal n) as (NE & D & _ & Z). exists [], (dec n), [], []. rewrite !app_nil_r. repeat split; auto.
  destruct Z as [Z | Z]; [auto |]. right. repeat split; assumption.
Qed.
Lemma value_dec n : Value (dec n) (JNum (dec n)).
Proof. constructor. apply decimal_number. Qed.
Lemma value_quoted s d : Str s d -> Value (quoted s) (JStr d).
Proof. apply Value_str. Qed.

Definition comma (sep : list N) : Prop := exists w, sep = 44 :: w /\ Ws w.
Lemma elements_sep sep ts vs : comma sep -> Forall2 Value ts vs -> ts <> [] -> forall w, Ws w -> Elements (w ++ sep_list sep ts) vs.
Proof.
  intros (w0 & -> & W0). induction 1 as [| t v ts vs V F IH]; intros NE w W; [congruence |].
  destruct ts as [| t' ts].
  - inversion F; subst. cbn [sep_list]. rewrite <- (app_nil_r t). apply Elements_one; auto. constructor.
  - change (sep_list (44 :: w0) (t :: t' :: ts)) with (t ++ (44 :: w0) ++ sep_list (44 :: w0) (t' :: ts)).
    change (w ++ t ++ (44 :: w0) ++ sep_list (44 :: w0) (t' :: ts)) with (w ++ t ++ [] ++ [44] ++ (w0 ++ sep_list (44 :: w0) (t' :: ts))).
    apply Elements_more; auto; [constructor |]. apply IH; [discriminate | assumption].
Qed.
Lemma value_array sep ts vs : comma sep -> Forall2 Value ts vs -> Value (bs "[" ++ sep_list sep ts ++ bs "]") (JArr vs).
Proof.
  intros C F. destruct ts as [| t ts].
  - inversion F; subst. apply (Value_arr0 []). constructor.
  - apply Value_arr. apply (elements_sep sep (t :: ts) vs C F ltac:(discriminate) []). constructor.
Qed.
Definition blanks (w : list N) : Prop := Ws w.
Lemma members_sep sep kc ks ts vs : comma sep -> Ws kc -> Forall2 (fun k t => Str k k) ks ts -> Forall2 Value ts vs -> ts <> [] -> forall w, Ws w ->
  Members (w ++ sep_list sep (map (fun kt => quoted (fst kt) ++ 58 :: kc ++ snd kt) (combine ks ts))) (combine ks vs).
Proof.
  intros (w0 & -> & W0) WK FK. revert vs. induction FK as [| k t ks ts K FK IH]; intros vs FV NE w W; [congruence |].
  inversion FV as [| ? v ? vs' V FV']; subst. destruct ts as [| t' ts].
  - inversion FK; subst. inversion FV'; subst. cbn [combine map sep_list fst snd].
    pose proof (Members_one w k k [] kc t [] v W K ltac:(constructor) WK V ltac:(constructor)) as M. unfold quoted, q1.
    rewrite app_nil_r in M. cbn [app] in M |- *. rewrite <- app_assoc. exact M.
  - inversion FK as [| k' ? ks' ? K' FK'']; subst. inversion FV' as [| ? v' ? vs'' V' FV'']; subst.
    pose proof (IH (v' :: vs'') FV' ltac:(discriminate) w0 W0) as MM. cbn [combine] in MM |- *.
    pose proof (Members_more w k k [] kc t [] v _ _ W K ltac:(constructor) WK V ltac:(constructor) MM) as M.
    cbn [map] in M |- *. cbn [fst snd] in M |- *.
    match goal with |- Members (w ++ sep_list ?s (?a :: ?b :: ?l)) _ => change (sep_list s (a :: b :: l)) with (a ++ s ++ sep_list s (b :: l)) end.
    unfold quoted at 1, q1 at 1 2. cbn [app] in M |- *. rewrite <- ?app_assoc. cbn [app]. rewrite <- ?app_assoc. cbn [app]. exact M.
Qed.
Lemma value_object sep kc ks ts vs : comma sep -> Ws kc -> Forall2 (fun k t => Str k k) ks ts -> Forall2 Value ts vs ->
  Value (bs "{" ++ sep_list sep (map (fun kt => quoted (fst kt) ++ 58 :: kc ++ snd kt) (combine ks ts)) ++ bs "}") (JObj (combine ks vs)).
Proof.
  intros C WK FK FV. destruct ts as [| t ts].
  - inversion FV; subst. inversion FK; subst. apply (Value_obj0 []). constructor.
  - apply Value_obj. apply (members_sep sep kc ks (t :: ts) vs C WK FK FV ltac:(discriminate) []). constructor.
Qed.

(** ** Fields *)
Definition quotable (s : list N) : Prop := Forall (fun c => 32 <= c < 128 /\ c <> 34) s.
Definition field_ok (f : field) : Prop :=
  match f with FText s => quotable s | FHex l => is_bytes l | _ => True end.
Definition field_plain (f : field) : Prop := match f with FText s => ~ In 92 s | _ => True end.

Lemma quotable_str s : quotable s -> ~ In 92 s -> Str s s.
Proof.
  induction 1 as [| c s [[A A'] B] F IH]; intros N; [constructor |]. apply Str_raw; auto.
  - intros ->. apply N. left. reflexivity.
  - apply IH. intros C. apply N. right. exact C.
Qed.

Lemma hex_digit_ok n : n < 16 -> hex_value (hex_digit n) = Some n /\ 32 <= hex_digit n < 128 /\ hex_digit n <> 34 /\ hex_digit n <> 92.
Proof.
  intros H. unfold hex_digit. destruct (N.ltb_spec n 10); (split; [| lia]); unfold hex_value.
  - destruct (N.leb_spec 48 (48 + n)), (N.leb_spec (48 + n) 57); try lia. cbn [andb]. f_equal. lia.
  - destruct (N.leb_spec 48 (55 + n)), (N.leb_spec (55 + n) 57); try lia. cbn [andb].
    destruct (N.leb_spec 65 (55 + n)), (N.leb_spec (55 + n) 70); try lia. cbn [andb]. f_equal. lia.
Qed.
Lemma hex_shows l : is_bytes l -> HexText l (hex l) /\ quotable (hex l) /\ ~ In 92 (hex l).
Proof.
  induction 1 as [| b l B F (I1 & I2 & I3)]; [split; [constructor | split; [constructor | intros []]] |]. unfold is_u8 in B.
  cbn [hex flat_map hex2 app]. assert (D : b / 16 < 16) by (apply N.div_lt_upper_bound; lia). assert (M : b mod 16 < 16) by (apply N.mod_lt; lia).
  pose proof (N.div_mod b 16 ltac:(lia)) as E. destruct (hex_digit_ok _ D) as (D1 & D2 & D3 & D4), (hex_digit_ok _ M) as (M1 & M2 & M3 & M4).
  repeat split.
  - eapply HexText_cons; eauto.
  - constructor; [auto |]. constructor; [auto |]. exact I2.
  - intros [C | [C | C]]; [congruence | congruence | exact (I3 C)].
Qed.
Lemma hex_weight l s : HexText l s -> w s = w (hex l).
Proof.
  induction 1 as [| b l c1 c2 h1 h2 s H1 H2 E H IH]; [reflexivity |]. cbn [hex flat_map hex2 app].
  apply hex_value_lt in H1 as [L1 B1], H2 as [L2 B2]. assert (D : b / 16 < 16) by (apply N.div_lt_upper_bound; lia). assert (M : b mod 16 < 16) by (apply N.mod_lt; lia).
  assert (NB : forall n, hex_digit n <> 32) by (intros n; unfold hex_digit; destruct (n <? 10) eqn:Q; apply N.ltb_lt in Q || apply N.ltb_ge in Q; lia).
  rewrite !w_nonblank by auto. f_equal. f_equal. exact IH.
Qed.

Lemma text_utf8 s : Forall (fun c => c < 128) s -> Utf8 s.
Proof. apply utf8_ascii. Qed.
Lemma utf8_quoted s : Utf8 s -> Utf8 (quoted s).
Proof.
  intros U. unfold quoted, q1. apply utf8_app; [apply utf8_ascii; repeat constructor |]. apply utf8_app; [exact U | apply utf8_ascii; repeat constructor].
Qed.
Lemma utf8_dec n : Utf8 (dec n).
Proof. apply utf8_ascii. destruct (dec_decimal n) as (_ & D & _). eapply Forall_impl; [| exact D]. unfold is_digit. cbn. lia. Qed.
Lemma utf8_sep sep ts : Utf8 sep -> Forall Utf8 ts -> Utf8 (sep_list sep ts).
Proof.
  intros S. induction 1 as [| t ts T F IH]; [exists []; split; [constructor | reflexivity] |]. destruct ts; [exact T |].
  change (sep_list sep (t :: l :: ts)) with (t ++ sep ++ sep_list sep (l :: ts)). repeat apply utf8_app; assumption.
Qed.
Ltac ascii := apply utf8_ascii; repeat constructor.

Lemma quotable_utf8 s : quotable s -> Utf8 s.
Proof. intros H. apply utf8_ascii. eapply Forall_impl; [| exact H]. cbn. lia. Qed.

Lemma comma_list_bytes : comma (bs ", ").
Proof. exists [32]. split; [reflexivity |]. repeat constructor. Qed.
Lemma comma_plain : comma (bs ",").
Proof. exists []. split; [reflexivity | constructor]. Qed.

Lemma forall2_map {A B C} (P : A -> B -> Prop) (f : C -> A) (g : C -> B) l : (forall x, P (f x) (g x)) -> Forall2 P (map f l) (map g l).
Proof. intros H. induction l; constructor; auto. Qed.

Lemma bytes_shown l : Value (debug_bytes l) (JArr (map (fun n => JNum (dec n)) l)) /\ ShowsBytes l (JArr (map (fun n => JNum (dec n)) l)) /\ Utf8 (debug_bytes l).
Proof.
  split; [| split].
  - apply value_array; [apply comma_list_bytes |]. apply forall2_map. apply value_dec.
  - eexists. split; [reflexivity |]. rewrite <- (map_id l) at 1. apply forall2_map. intros n. exists (dec n). split; [reflexivity | apply dec_decimal].
  - unfold debug_bytes. apply utf8_app; [ascii |]. apply utf8_app; [| ascii]. apply utf8_sep; [ascii |]. apply Forall_forall. intros t I.
    apply in_map_iff in I as (n & <- & _). apply utf8_dec.
Qed.

Definition type_val (ty : N) : jval := match ty_to_rr_name ty with Some s => JStr (bs s) | None => JNum (dec ty) end.
Lemma mnemonic_text ty m : In (ty, m) mnemonics -> quotable (bs m) /\ ~ In 92 (bs m).
Proof.
  intros H. cbn in H. repeat (destruct H as [H | H]; [injection H as _ <-; split; [repeat constructor; discriminate | cbn; intuition discriminate] |]). destruct H.
Qed.
Lemma type_shown ty : Value (type_json ty) (type_val ty) /\ ShowsType ty (type_val ty) /\ Utf8 (type_json ty).
Proof.
  unfold type_json, type_val. destruct (ty_to_rr_name ty) as [m |] eqn:E.
  - apply rr_name_some in E. destruct (mnemonic_text _ _ E) as [Q N]. split; [| split].
    + apply value_quoted, quotable_str; assumption.
    + left. eauto.
    + apply utf8_quoted, quotable_utf8, Q.
  - split; [apply value_dec | split; [| apply utf8_dec]]. right. split; [apply rr_name_none, E |]. exists (dec ty). split; [reflexivity | apply dec_decimal].
Qed.

Lemma types_shown m : Value (mask_json m) (JArr (map type_val (mask_types 0 m))) /\ ShowsTypes m (JArr (map type_val (mask_types 0 m))) /\ Utf8 (mask_json m).
Proof.
  split; [| split].
  - apply value_array; [apply comma_plain |]. apply forall2_map. intros. apply type_shown.
  - exists (mask_types 0 m), (map type_val (mask_types 0 m)). split; [reflexivity |]. split; [| split].
    + rewrite <- (map_id (mask_types 0 m)) at 1. apply forall2_map. intros. apply type_shown.
    + apply mask_types_nodup.
    + apply mask_types_spec.
  - unfold mask_json. apply utf8_app; [ascii |]. apply utf8_app; [| ascii]. apply utf8_sep; [ascii |]. apply Forall_forall. intros t I.
    apply in_map_iff in I as (n & <- & _). apply type_shown.
Qed.

Lemma field_shown f : field_ok f -> field_plain f -> exists v, Value (fld_text f) v /\ Shows f v.
Proof.
  destruct f as [s | n | l | l | m | l]; cbn [field_ok field_plain fld_text Shows]; intros OK P.
  - exists (JStr s). split; [apply value_quoted, quotable_str; assumption | reflexivity].
  - exists (JNum (dec n)). split; [apply value_dec |]. exists (dec n). split; [reflexivity | apply dec_decimal].
  - destruct (bytes_shown l) as (V & S & _). eauto.
  - destruct (hex_shows l OK) as (H & Q & N). exists (JStr (hex l)). split; [apply value_quoted, quotable_str; assumption | eauto].
  - destruct (types_shown m) as (V & S & _). eauto.
  - destruct (utf8_ok l && json_plain l) eqn:E.
    + exists (JStr l). split; [apply value_quoted, plain_str | left; split; [apply harmless_spec, E | reflexivity]].
      apply Bool.andb_true_iff in E. apply E.
    + destruct (bytes_shown l) as (V & S & _). eexists. split; [exact V |]. right. split; [| exact S]. intros C. apply harmless_spec in C. congruence.
Qed.
Lemma field_utf8 f : field_ok f -> Utf8 (fld_text f).
Proof.
  destruct f as [s | n | l | l | m | l]; cbn [field_ok fld_text]; intros OK.
  - apply utf8_quoted, quotable_utf8, OK.
  - apply utf8_dec.
  - apply bytes_shown.
  - apply utf8_quoted, quotable_utf8, hex_shows, OK.
  - apply types_shown.
  - destruct (utf8_ok l && json_plain l) eqn:E; [| apply bytes_shown]. apply utf8_quoted. apply Bool.andb_true_iff in E as [E _]. apply utf8_ok_spec, E.
Qed.
