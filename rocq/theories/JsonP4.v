(** The JSON of records is right exactly when no name contains a backslash; signatures never are. *)
From Verif Require Import Base BaseP NameSpec NameM NameP RRM RecSpec ValM ValSpec HeldP TextSpec TextP JsonM JsonSpec JsonP JsonP2 JsonP3.
From Coq Require Import Permutation String Lia.
Local Open Scope N_scope.

(** ** Weights of fields *)
Lemma w_quoted s : w (quoted s) = (2 + w s)%nat.
Proof. unfold quoted, q1. rewrite !w_app. change (w [dquote]) with 1%nat. lia. Qed.
Lemma shows_num_eq n v : ShowsNum n v -> v = JNum (dec n).
Proof. intros (s & -> & D). f_equal. eapply decimal_unique; [exact D | apply dec_decimal]. Qed.

Lemma w_sep sep ts : w sep = 1%nat -> ts <> [] -> S (w (sep_list sep ts)) = fold_right (fun t n => S (w t) + n)%nat 0%nat ts.
Proof.
  intros S. induction ts as [| t ts IH]; intros NE; [congruence |]. destruct ts as [| t' ts].
  - cbn [sep_list fold_right]. lia.
  - change (sep_list sep (t :: t' :: ts)) with (t ++ sep ++ sep_list sep (t' :: ts)). rewrite !w_app, S.
    cbn [fold_right] in *. rewrite <- IH by discriminate. lia.
Qed.
Lemma array_weight sep ts vs : w sep = 1%nat -> Forall2 (fun t v => w t = wv v) ts vs -> wv (JArr vs) = w (bs "[" ++ sep_list sep ts ++ bs "]").
Proof.
  intros S F. rewrite !w_app. change (w (bs "[")) with 1%nat. change (w (bs "]")) with 1%nat. cbn [wv].
  destruct ts as [| t ts].
  - inversion F; subst. reflexivity.
  - pose proof (w_sep sep (t :: ts) S ltac:(discriminate)) as E.
    assert (Q : fold_right (fun t n => Datatypes.S (w t) + n)%nat 0%nat (t :: ts) = fold_right (fun v n => Datatypes.S (wv v) + n)%nat 0%nat vs).
    { clear E. induction F; [reflexivity |]. cbn [fold_right]. rewrite H, IHF. reflexivity. }
    rewrite <- Q, <- E. inversion F; subst. lia.
Qed.

Lemma forall2_comp {A B C} (P : A -> B -> Prop) (Q : C -> B -> Prop) (f : A -> C) l k : (forall x y, P x y -> Q (f x) y) -> Forall2 P l k -> Forall2 Q (map f l) k.
Proof. intros H. induction 1; constructor; auto. Qed.

Lemma bytes_weight l v : ShowsBytes l v -> wv v = w (debug_bytes l).
Proof.
  intros (vs & -> & F). apply array_weight; [reflexivity |]. eapply forall2_comp; [| exact F]. intros n v S. apply shows_num_eq in S. subst. reflexivity.
Qed.
Lemma type_weight ty v : ShowsType ty v -> w (type_json ty) = wv v.
Proof.
  intros [(m & I & ->) | [N S]]; unfold type_json.
  - apply rr_name_some in I. rewrite I, w_quoted. reflexivity.
  - apply rr_name_none in N. rewrite N. apply shows_num_eq in S. subst. reflexivity.
Qed.
Lemma forall2_perm {A B} (P : A -> B -> Prop) l l' k : Permutation l l' -> Forall2 P l k -> exists k', Permutation k k' /\ Forall2 P l' k'.
Proof.
  intros PM. revert k. induction PM as [| x l l' PM IH | x y l | l1 l2 l3 P1 IH1 P2 IH2]; intros k F.
  - exists k. auto.
  - inversion F as [| ? z ? k0 Z F']; subst. destruct (IH _ F') as (k' & Q & F2). exists (z :: k'). auto.
  - inversion F as [| ? z1 ? k0 Z1 F']; subst. inversion F' as [| ? z2 ? k1 Z2 F2]; subst. exists (z2 :: z1 :: k1). split; [apply perm_swap | auto].
  - destruct (IH1 _ F) as (k1 & Q1 & F1). destruct (IH2 _ F1) as (k2 & Q2 & F2). exists k2. split; [eapply perm_trans; eauto | exact F2].
Qed.
Lemma array_perm vs vs' : Permutation vs vs' -> wv (JArr vs) = wv (JArr vs').
Proof.
  intros P. assert (E : fold_right (fun v n => S (wv v) + n)%nat 0%nat vs = fold_right (fun v n => S (wv v) + n)%nat 0%nat vs').
  { induction P; cbn [fold_right] in *; lia. }
  cbn [wv]. rewrite E. destruct vs, vs'; try reflexivity; [apply Permutation_nil in P | apply Permutation_sym, Permutation_nil in P]; discriminate.
Qed.
Lemma types_weight m v : ShowsTypes m v -> wv v = w (mask_json m).
Proof.
  intros (tys & vs & -> & F & ND & H).
  assert (P : Permutation tys (mask_types 0 m)). { apply NoDup_Permutation; [exact ND | apply mask_types_nodup |]. intros t. rewrite mask_types_spec. apply H. }
  destruct (forall2_perm _ _ _ _ P F) as (vs' & PV & F'). rewrite (array_perm _ _ PV). apply array_weight; [reflexivity |].
  eapply forall2_comp; [| exact F']. intros. apply type_weight. assumption.
Qed.

Lemma field_weight f v : Shows f v -> wv v = w (fld_text f).
Proof.
  destruct f as [s | n | l | l | m | l]; cbn [Shows fld_text].
  - intros ->. rewrite w_quoted. reflexivity.
  - intros S. apply shows_num_eq in S. subst. reflexivity.
  - apply bytes_weight.
  - intros (s & -> & H). rewrite w_quoted, <- (hex_weight _ _ H). reflexivity.
  - apply types_weight.
  - intros [[H ->] | [H S]].
    + apply harmless_spec in H. rewrite H, w_quoted. reflexivity.
    + destruct (utf8_ok l && json_plain l) eqn:E; [exfalso; apply H, harmless_spec, E |]. apply bytes_weight, S.
Qed.

Lemma object_weight fs v : HasFields fs v -> wv v = w (obj_text fs).
Proof.
  intros (kvs & -> & F). unfold obj_text. rewrite !w_app. change (w (bs "{")) with 1%nat. change (w (bs "}")) with 1%nat. cbn [wv].
  destruct fs as [| f fs]; [inversion F; subst; reflexivity |].
  pose proof (w_sep (bs ",") (map pair_text (f :: fs)) eq_refl ltac:(discriminate)) as E.
  assert (Q : fold_right (fun t n => S (w t) + n)%nat 0%nat (map pair_text (f :: fs)) = fold_right (fun kv n => 4 + w (fst kv) + wv (snd kv) + n)%nat 0%nat kvs).
  { clear E. induction F as [| x y l k [H1 H2] F IH]; [reflexivity |]. cbn [map fold_right]. rewrite IH. unfold pair_text, key. rewrite !w_app, w_quoted, H1, (field_weight _ _ H2).
    change (w (bs ":")) with 1%nat. lia. }
  rewrite <- Q, <- E. inversion F; subst. lia.
Qed.

(** ** Objects *)
Definition pairs_plain (fs : list (string * field)) : Prop := Forall (fun kf => quotable (bs (fst kf)) /\ ~ In 92 (bs (fst kf)) /\ field_ok (snd kf) /\ field_plain (snd kf)) fs.

Lemma object_shown fs : pairs_plain fs -> exists v, Value (obj_text fs) v /\ HasFields fs v.
Proof.
  intros H.
  assert (E : exists vs, Forall2 (fun f v => Value (fld_text (snd f)) v /\ Shows (snd f) v) fs vs).
  { induction H as [| kf fs (Q & N & OK & P) F (vs & IH)]; [exists []; constructor |]. destruct (field_shown _ OK P) as (v & V & S). exists (v :: vs). constructor; auto. }
  destruct E as (vs & F). exists (JObj (combine (map (fun f => bs (fst f)) fs) vs)). split.
  - assert (T : map pair_text fs = map (fun kt => quoted (fst kt) ++ 58 :: [] ++ snd kt) (combine (map (fun f => bs (fst f)) fs) (map (fun f => fld_text (snd f)) fs))).
    { clear. induction fs as [| f fs IH]; [reflexivity |]. cbn [map combine]. rewrite IH. f_equal. unfold pair_text, key. rewrite <- app_assoc. reflexivity. }
    unfold obj_text. rewrite T. apply value_object; [apply comma_plain | constructor | |].
    + clear -H. induction H as [| f fs (Q & N & _)]; constructor; [apply quotable_str; assumption | assumption].
    + eapply forall2_comp; [| exact F]. cbn. tauto.
  - eexists. split; [reflexivity |]. clear -F. induction F as [| f v fs vs [V S] F IH]; [constructor |]. cbn [map combine]. constructor; [auto | exact IH].
Qed.
Lemma object_utf8 fs : Forall (fun kf => quotable (bs (fst kf)) /\ field_ok (snd kf)) fs -> Utf8 (obj_text fs).
Proof.
  intros H. unfold obj_text. apply utf8_app; [ascii |]. apply utf8_app; [| ascii]. apply utf8_sep; [ascii |].
  apply Forall_forall. intros t I. apply in_map_iff in I as (kf & <- & I). rewrite Forall_forall in H. destruct (H _ I) as [Q OK].
  unfold pair_text, key. apply utf8_app; [apply utf8_app; [apply utf8_quoted, quotable_utf8, Q | ascii] | apply field_utf8, OK].
Qed.

Lemma in_sep_list x sep t ts : In t ts -> In x t -> In x (sep_list sep ts).
Proof.
  induction ts as [| a ts IH]; intros I X; [destruct I |]. destruct ts as [| b ts].
  - destruct I as [-> | []]. exact X.
  - change (sep_list sep (a :: b :: ts)) with (a ++ sep ++ sep_list sep (b :: ts)). rewrite !in_app_iff. destruct I as [-> | I]; [auto |]. right. right. apply IH; assumption.
Qed.
Lemma text_in_object x k s fs : In (k, FText s) fs -> In x s -> In x (obj_text fs).
Proof.
  intros I X. unfold obj_text. rewrite !in_app_iff. right. left. apply in_sep_list with (pair_text (k, FText s)); [apply in_map, I |].
  unfold pair_text, quoted. cbn [fst snd fld_text]. unfold quoted. rewrite !in_app_iff. auto.
Qed.

(** ** Records *)
Lemma name_quotable n : name_try_from n = Some n -> quotable n.
Proof.
  intros H. apply name_try_from_spec in H as [(ls & _ & -> & F & _) _]. unfold dots. clear -F. induction F as [| l ls [_ L] F IH]; [constructor |].
  cbn [map List.concat]. apply Forall_app. split; [| exact IH]. apply Forall_app. split.
  - eapply Forall_impl; [| exact L]. unfold label_char. cbn. lia.
  - repeat constructor; discriminate.
Qed.
Ltac fld := first [exact I | apply name_quotable; assumption | assumption | repeat constructor; discriminate].
Lemma fields_ok r : Held r -> Forall (fun kf => quotable (bs (fst kf)) /\ ~ In 92 (bs (fst kf)) /\ field_ok (snd kf)) (fields r).
Proof.
  intros H. unfold Held in H. destruct r as [r|r|r|r|r|r|r|r|r|r|r|r]; cbn [typed_rr] in H; repeat match type of H with _ /\ _ => let A := fresh "A" in destruct H as [A H] end;
  repeat (constructor; [split; [repeat constructor; discriminate | split; [cbn; intuition discriminate | cbn [snd field_ok]; fld]] |]); constructor.
Qed.

Lemma record_shown r : Held r -> ~ is_rrsig r -> no_backslash r -> exists v, Value (rr_json r) v /\ Describes r v.
Proof.
  intros H NS NB. rewrite (rr_json_obj r NS). apply object_shown. pose proof (fields_ok r H) as F. unfold no_backslash in NB.
  apply Forall_forall. intros [k f] I. rewrite Forall_forall in F. destruct (F _ I) as (A & B & C). repeat split; try assumption. cbn [snd].
  destruct f; cbn [field_plain]; auto. eapply NB. exact I.
Qed.
Lemma record_utf8 r : Held r -> ~ is_rrsig r -> Utf8 (rr_json r).
Proof.
  intros H NS. rewrite (rr_json_obj r NS). apply object_utf8. eapply Forall_impl; [| exact (fields_ok r H)]. cbn. tauto.
Qed.
Lemma value_json s v : Utf8 s -> Value s v -> Json s v.
Proof. intros U V. split; [exact U |]. exists [], s, []. rewrite app_nil_r. repeat split; auto; constructor. Qed.

Lemma record_weight r v : ~ is_rrsig r -> Describes r v -> wv v = w (rr_json r).
Proof. intros NS D. rewrite (rr_json_obj r NS). apply object_weight, D. Qed.

Lemma record_needs_plain r v : ~ is_rrsig r -> Json (rr_json r) v -> Describes r v -> no_backslash r.
Proof.
  intros NS J D k s I B. pose proof (record_weight r v NS D) as W. assert (IN : In 92 (rr_json r)) by (rewrite (rr_json_obj r NS); eapply text_in_object; eauto).
  pose proof (json_weight _ _ J IN). lia.
Qed.

(** ** Signatures are never JSON *)
Definition Runs (t q : list N) : Prop := forall f, pv f (t ++ q) = None \/ exists v, pv f (t ++ q) = Some (v, q).

Lemma po_none k t q : Str k k -> solid (t ++ 44 :: q) -> Runs t (44 :: q) -> solid q -> (forall f, po f q = None) -> forall f, po f (34 :: k ++ 34 :: 58 :: t ++ 44 :: q) = None.
Proof.
  intros K ST R SQ H f. destruct f; [reflexivity |]. cbn [po]. change (34 =? 34) with true. cbn iota. rewrite (pstr_complete _ _ K).
  change (skip (58 :: t ++ 44 :: q)) with (58 :: t ++ 44 :: q). cbn iota. change (58 =? 58) with true. cbn iota. rewrite (skip_solid _ ST).
  destruct (R f) as [-> | (v & ->)]; [reflexivity |]. change (skip (44 :: q)) with (44 :: q). cbn iota. change (44 =? 125) with false. change (44 =? 44) with true. cbn iota.
  rewrite (skip_solid _ SQ), H. reflexivity.
Qed.

Lemma pstr_runs n : forall s q, (List.length s <= n)%nat -> ~ In 34 s -> (s = [] \/ last s 0 <> 92) -> pstr (s ++ 34 :: q) = None \/ exists d, pstr (s ++ 34 :: q) = Some (d, q).
Proof.
  assert (LS : forall (x : N) s, (x :: s = [] \/ last (x :: s) 0 <> 92) -> s = [] \/ last s 0 <> 92).
  { intros x s [C | C]; [discriminate |]. destruct s; [auto |]. right. exact C. }
  induction n; intros s q L NQ LA.
  { destruct s; [right; exists []; reflexivity | cbn in L; lia]. }
  destruct s as [| c s]; [right; exists []; reflexivity |].
  assert (NC : c <> 34) by (intros ->; apply NQ; left; reflexivity).
  cbn [app pstr]. destruct (N.eqb_spec c 34); [contradiction |]. destruct (N.eqb_spec c 92) as [-> | NE].
  - destruct s as [| e s]. { exfalso. destruct LA as [C | C]; [discriminate | apply C; reflexivity]. }
    assert (NS : ~ In 34 s) by (intros C; apply NQ; right; right; exact C). assert (LA2 : s = [] \/ last s 0 <> 92) by (apply (LS e), (LS 92), LA).
    cbn [app]. destruct (e =? 117) eqn:EU.
    + destruct s as [| c1 s]; [left; destruct q as [| ? [| ? [| ? ?]]]; reflexivity |].
      destruct s as [| c2 s]. { left. cbn [app]. destruct q as [| ? [| ? ?]]; try reflexivity. change (hex_value 34) with (@None N). destruct (hex_value c1); reflexivity. }
      destruct s as [| c3 s]. { left. cbn [app]. destruct q as [| ? ?]; try reflexivity. change (hex_value 34) with (@None N). destruct (hex_value c1), (hex_value c2); reflexivity. }
      destruct s as [| c4 s]. { left. cbn [app]. change (hex_value 34) with (@None N). destruct (hex_value c1), (hex_value c2), (hex_value c3); reflexivity. }
      cbn [app]. destruct (hex_value c1), (hex_value c2), (hex_value c3), (hex_value c4); auto.
      assert (LA3 : s = [] \/ last s 0 <> 92) by (do 4 apply LS in LA2; exact LA2). destruct (IHn s q) as [-> | (d & ->)]; eauto.
      * cbn [List.length] in L. lia.
      * intros C. apply NS. do 4 right. exact C.
    + destruct (esc_value e); [| auto]. destruct (IHn s q) as [-> | (d & ->)]; eauto. cbn [List.length] in L. lia.
  - destruct (c <? 32); [auto |]. destruct (IHn s q) as [-> | (d & ->)]; eauto.
    + cbn [List.length] in L. lia.
    + intros C. apply NQ. right. exact C.
Qed.

Lemma quoted_runs s q : ~ In 34 s -> (s = [] \/ last s 0 <> 92) -> Runs (quoted s) q.
Proof.
  intros NQ LA f. destruct f; [auto |]. unfold quoted, q1. cbn [app]. rewrite <- app_assoc. cbn [app pv]. change (dquote =? 34) with true. cbn iota. change dquote with 34.
  destruct (pstr_runs (List.length s) s q ltac:(lia) NQ LA) as [-> | (d & ->)]; eauto.
Qed.
Lemma dec_runs n c q : numch c = false -> Runs (dec n) (c :: q).
Proof.
  intros NC f. destruct f; [auto |]. right. pose proof (decimal_number n) as D. destruct (proj1 parser_complete _ _ (value_dec n)) as [_ (f0 & H)].
  destruct (dec_decimal n) as (NE & DG & _). destruct (dec n) as [| x l] eqn:E; [congruence |].
  assert (F : Forall (fun c => numch c = true) (x :: l)) by (eapply Forall_impl; [apply digit_numch | exact DG]).
  inversion F as [| ? ? NX F']; subst. pose proof (numch_cases x NX) as (A1 & A2 & A3 & A4 & A5 & A6 & _). cbn [app pv].
  repeat match goal with |- context [x =? ?k] => destruct (N.eqb_spec x k); [contradiction |] end. rewrite NX.
  change (x :: l ++ c :: q) with ((x :: l) ++ c :: q). rewrite span_num by assumption. eauto.
Qed.
Lemma dec_solid n q : exists x l, dec n ++ q = x :: l /\ is_digit x.
Proof. destruct (dec_decimal n) as (NE & D & _). destruct (dec n) as [| x l]; [congruence |]. inversion D; subst. exists x, (l ++ q). auto. Qed.
Lemma dec_solid' n q : solid (dec n ++ q).
Proof. destruct (dec_solid n q) as (x & l & -> & D). cbn. apply numch_cases, digit_numch, D. Qed.

Lemma held_name_quote n : name_try_from n = Some n -> ~ In 34 n /\ (n = [] \/ last n 0 <> 92).
Proof.
  intros H. split.
  - intros C. pose proof (name_quotable n H) as Q. unfold quotable in Q. rewrite Forall_forall in Q. apply Q in C. intuition lia.
  - right. apply name_try_from_spec in H as [(ls & NE & -> & _) _]. destruct (exists_last NE) as (l0 & l & ->). unfold dots. rewrite map_app, concat_app. cbn [map List.concat].
    rewrite app_nil_r, app_assoc, last_last. discriminate.
Qed.

Lemma str_lit s : quotable (bs s) -> ~ In 92 (bs s) -> Str (bs s) (bs s).
Proof. apply quotable_str. Qed.
Ltac lit := apply quotable_str; [repeat constructor; discriminate | cbn; intuition discriminate].

Lemma pv_obj_none f x : (forall f, po f (34 :: x) = None) -> pv (S f) (123 :: 34 :: x) = None.
Proof.
  intros H. cbn [pv]. change (skip (34 :: x)) with (34 :: x). cbn iota. rewrite H. reflexivity.
Qed.

Lemma rrsig_not_json r v : name_try_from (rs_name r) = Some (rs_name r) -> ~ Json (rr_json (RR_RRSig r)) v.
Proof.
  intros HN J. apply json_parses in J as (f0 & J). destruct (J (S f0) ltac:(lia)) as (w & P & _).
  destruct (held_name_quote _ HN) as [NQ NL].
  assert (Z : exists tail, rr_json (RR_RRSig r) = 123 :: 34 :: bs "type" ++ 34 :: 58 :: quoted (bs "ds") ++ 44 :: 34 :: bs "name" ++ 34 :: 58 :: quoted (rs_name r) ++ 44 ::
    34 :: bs "signed_record_type" ++ 34 :: 58 :: dec (rs_ty r) ++ 44 :: 34 :: bs "alg" ++ 34 :: 58 :: dec (rs_alg r) ++ 44 :: 34 :: bs "signed_labels" ++ 34 :: 58 :: dec (rs_labels r) ++ 44 ::
    34 :: bs "orig_ttl" ++ 34 :: 58 :: dec (rs_orig_ttl r) ++ 44 :: 34 :: bs "expiration" ++ 34 :: dec (rs_expiration r) ++ tail).
  { eexists. unfold rr_json, rrsig_json, head, key. unfold quoted at 1 3 5 7 9 11 13. unfold q1. repeat rewrite <- app_assoc. cbn [app]. reflexivity. }
  destruct Z as (tail & Z). rewrite Z in P. clear Z.
  assert (PO : forall f, po f (34 :: bs "type" ++ 34 :: 58 :: quoted (bs "ds") ++ 44 :: 34 :: bs "name" ++ 34 :: 58 :: quoted (rs_name r) ++ 44 ::
    34 :: bs "signed_record_type" ++ 34 :: 58 :: dec (rs_ty r) ++ 44 :: 34 :: bs "alg" ++ 34 :: 58 :: dec (rs_alg r) ++ 44 :: 34 :: bs "signed_labels" ++ 34 :: 58 :: dec (rs_labels r) ++ 44 ::
    34 :: bs "orig_ttl" ++ 34 :: 58 :: dec (rs_orig_ttl r) ++ 44 :: 34 :: bs "expiration" ++ 34 :: dec (rs_expiration r) ++ tail) = None).
  { apply po_none; [lit | exact eq_refl | apply quoted_runs; [cbn; intuition discriminate | right; discriminate] | exact eq_refl |].
    apply po_none; [lit | exact eq_refl | apply quoted_runs; assumption | exact eq_refl |].
    apply po_none; [lit | apply dec_solid' | apply dec_runs; reflexivity | exact eq_refl |].
    apply po_none; [lit | apply dec_solid' | apply dec_runs; reflexivity | exact eq_refl |].
    apply po_none; [lit | apply dec_solid' | apply dec_runs; reflexivity | exact eq_refl |].
    apply po_none; [lit | apply dec_solid' | apply dec_runs; reflexivity | exact eq_refl |].
    intros f. destruct f; [reflexivity |]. cbn [po]. change (34 =? 34) with true. cbn iota. rewrite (pstr_complete (bs "expiration") (bs "expiration")) by lit.
    rewrite (skip_solid _ (dec_solid' _ _)). destruct (dec_solid (rs_expiration r) tail) as (x & l & -> & D). destruct (N.eqb_spec x 58); [unfold is_digit in D; lia | reflexivity]. }
  pose proof (pv_obj_none f0 _ PO) as Q. rewrite skip_solid in P by exact eq_refl. rewrite Q in P. discriminate.
Qed.

(** The exact statement. *)
Lemma record_json r : Held r -> ((exists v, Json (rr_json r) v /\ Describes r v) <-> ~ is_rrsig r /\ no_backslash r).
Proof.
  intros H. split.
  - intros (v & J & D). assert (NS : ~ is_rrsig r).
    { intros S. destruct r as [r|r|r|r|r|r|r|r|r|r|r|r]; try (exact S). unfold Held in H. cbn [typed_rr] in H. exact (rrsig_not_json r v (proj1 H) J). }
    split; [exact NS |]. eapply record_needs_plain; eassumption.
  - intros [NS NB]. destruct (record_shown r H NS NB) as (v & V & D). exists v. split; [| exact D]. apply value_json; [apply record_utf8; assumption | exact V].
Qed.
Lemma record_json_if r : Held r -> ~ is_rrsig r -> no_backslash r -> exists v, Json (rr_json r) v /\ Describes r v.
Proof. intros H S B. apply record_json; auto. Qed.
