(** The JSON of verification results (C52). *)
From Verif Require Import Base BaseP NameSpec NameM NameP WireM RRM RecSpec SerM ValM ValSpec ValP3 HeldP TextSpec TextP JsonM JsonSpec JsonP JsonP2 JsonP3 JsonP4.
From Coq Require Import Permutation String Lia.
Local Open Scope N_scope.

Definition result_keys : list (list N) := [bs "valid_from"; bs "expires"; bs "max_cache_ttl"; bs "verified_rrs"].
Definition records_text (rs : list RR) : list N := bs "[" ++ sep_list (bs ", ") (map rr_json rs) ++ bs "]".
Definition result_texts (v : verified) : list (list N) := [dec (vr_valid_from v); dec (vr_expires v); dec (vr_max_cache_ttl v); records_text (vr_rrs v)].

Lemma verified_json_obj v : verified_json v =
  bs "{" ++ sep_list (bs ", ") (map (fun kt => quoted (fst kt) ++ 58 :: [32] ++ snd kt) (combine result_keys (result_texts v))) ++ bs "}".
Proof.
  unfold verified_json, wkey, result_keys, result_texts, records_text. cbn [combine map sep_list fst snd]. change (bs "]}") with (bs "]" ++ bs "}").
  assert (K : forall t, 58 :: [32] ++ t = bs ": " ++ t) by reflexivity. rewrite !K. repeat rewrite <- app_assoc. reflexivity.
Qed.

Lemma forall2_exists {A B} (P : A -> B -> Prop) l : Forall (fun x => exists y, P x y) l -> exists k, Forall2 P l k.
Proof. induction 1 as [| x l (y & H) F (k & IH)]; [exists []; constructor | exists (y :: k); constructor; assumption]. Qed.

Lemma result_shown v : Forall Held (vr_rrs v) -> Forall (fun r => ~ is_rrsig r) (vr_rrs v) -> Forall no_backslash (vr_rrs v) ->
  exists j, Json (verified_json v) j /\ DescribesResult v j.
Proof.
  intros H S B. assert (E : exists js, Forall2 (fun r j => Value (rr_json r) j /\ Describes r j) (vr_rrs v) js).
  { apply forall2_exists. rewrite Forall_forall in *. intros r I. apply record_shown; auto. }
  destruct E as (js & F).
  exists (JObj (combine result_keys [JNum (dec (vr_valid_from v)); JNum (dec (vr_expires v)); JNum (dec (vr_max_cache_ttl v)); JArr js])). split.
  - apply value_json.
    + rewrite verified_json_obj. apply utf8_app; [ascii |]. apply utf8_app; [| ascii]. apply utf8_sep; [ascii |]. unfold result_keys, result_texts.
      cbn [combine map fst snd].
      assert (K : forall k t, Forall (fun c => c < 128) k -> Utf8 t -> Utf8 (quoted k ++ 58 :: [32] ++ t)).
      { intros k t HK HT. apply utf8_app; [apply utf8_quoted, utf8_ascii, HK |]. change (58 :: [32] ++ t) with ([58; 32] ++ t). apply utf8_app; [ascii | exact HT]. }
      repeat (constructor; [apply K; [repeat constructor |] |]); try apply utf8_dec; [| constructor].
      unfold records_text. apply utf8_app; [ascii |]. apply utf8_app; [| ascii]. apply utf8_sep; [ascii |]. apply Forall_forall. intros t I.
      apply in_map_iff in I as (r & <- & I). rewrite Forall_forall in H, S. apply record_utf8; auto.
    + rewrite verified_json_obj. apply value_object; [apply comma_list_bytes | repeat constructor | |].
      * unfold result_keys, result_texts. repeat (constructor; [lit |]). constructor.
      * unfold result_texts. repeat (constructor; [apply value_dec |]). constructor; [| constructor]. apply value_array; [apply comma_list_bytes |].
        eapply forall2_comp; [| exact F]. cbn. tauto.
  - do 4 eexists. split; [reflexivity |]. repeat split; try (eexists; split; [reflexivity | apply dec_decimal]). clear -F. induction F; constructor; tauto.
Qed.

Lemma in_backslash r : ~ is_rrsig r -> ~ no_backslash r -> In 92 (rr_json r).
Proof.
  intros NS NB. rewrite (rr_json_obj r NS). destruct (in_dec N.eq_dec 92 (obj_text (fields r))) as [I | NI]; [exact I |]. exfalso. apply NB. intros k s I B.
  apply NI. eapply text_in_object; eauto.
Qed.
Lemma result_weight v j : Forall (fun r => ~ is_rrsig r) (vr_rrs v) -> DescribesResult v j -> wv j = w (verified_json v).
Proof.
  intros S (a & b & c & rs & -> & A & B & C & F). apply shows_num_eq in A, B, C. subst.
  assert (R : wv (JArr rs) = w (records_text (vr_rrs v))).
  { apply array_weight; [reflexivity |]. clear - S F. induction F as [| r j l k D F IH]; [constructor |]. inversion S; subst. constructor; [symmetry; apply record_weight; assumption | auto]. }
  rewrite verified_json_obj. unfold result_keys, result_texts. cbn [combine map sep_list fst snd]. rewrite !w_app, !w_quoted.
  change (w (bs "{")) with 1%nat. change (w (bs "}")) with 1%nat. change (w (bs ", ")) with 1%nat.
  assert (K : forall t, w (58 :: [32] ++ t) = Datatypes.S (w t)). { intros t. change (58 :: [32] ++ t) with ([58; 32] ++ t). rewrite w_app. reflexivity. }
  rewrite !K, <- R. cbn [wv fold_right fst snd]. lia.
Qed.
Lemma result_needs_plain v j : Forall (fun r => ~ is_rrsig r) (vr_rrs v) -> Json (verified_json v) j -> DescribesResult v j -> Forall no_backslash (vr_rrs v).
Proof.
  intros S J D. pose proof (result_weight v j S D) as W. apply Forall_forall. intros r I k s K B.
  assert (IN : In 92 (verified_json v)).
  { unfold verified_json. rewrite !in_app_iff. do 12 right. left. eapply in_sep_list; [apply in_map, I |].
    rewrite Forall_forall in S. rewrite (rr_json_obj r (S r I)). eapply text_in_object; eauto. }
  pose proof (json_weight _ _ J IN). lia.
Qed.

Lemma error_shown x : exists j, Json (error_json x) j /\ DescribesError x j.
Proof.
  eexists. split; [| reflexivity]. apply value_json.
  - destruct x; ascii.
  - assert (E : error_json x = bs "{" ++ sep_list (bs ",") (map (fun kt => quoted (fst kt) ++ 58 :: [] ++ snd kt) (combine [bs "error"] [quoted (bs match x with UnsupportedAlgorithm => "UnsupportedAlgorithm" | Invalid => "Invalid" end)])) ++ bs "}").
    { destruct x; reflexivity. }
    rewrite E. apply (value_object (bs ",") [] [bs "error"] _ [_] comma_plain).
    + constructor.
    + constructor; [lit | constructor].
    + constructor; [| constructor]. apply value_quoted. destruct x; lit.
Qed.

Lemma verified_not_rrsig e dbg fuel rrs v : Forall Held rrs -> verify_rr_stream e dbg fuel rrs = Ok v ->
  Forall Held (vr_rrs v) /\ Forall (fun r => ~ is_rrsig r) (vr_rrs v).
Proof.
  intros H V. destruct (verified_input e dbg fuel rrs v H V) as [I _]. rewrite !Forall_forall in *. split; intros r R; destruct (I r R) as [I1 I2]; [auto |].
  intros S. apply I2. destruct r as [r|r|r|r|r|r|r|r|r|r|r|r]; try (destruct S). unfold metadata. cbn. auto.
Qed.

Lemma byte_stream_json e dbg fuel stream text : is_bytes stream -> verify_byte_stream e dbg fuel stream = Ok text ->
  (exists rrs v, parse_rr_stream dbg stream = Ok rrs /\ verify_rr_stream e dbg fuel rrs = Ok v /\
    ((exists j, Json text j /\ DescribesResult v j) <-> Forall no_backslash (vr_rrs v))) \/
  (exists x j, Json text j /\ DescribesError x j /\
    ((x = Invalid /\ exists p, parse_rr_stream dbg stream = Err p) \/ exists rrs, parse_rr_stream dbg stream = Ok rrs /\ verify_rr_stream e dbg fuel rrs = Err x)).
Proof.
  intros B H. unfold verify_byte_stream in H. destruct (parse_rr_stream dbg stream) as [rrs | p | |] eqn:P; try discriminate.
  - destruct (verify_rr_stream e dbg fuel rrs) as [v | x | |] eqn:V; try discriminate; injection H as <-.
    + left. exists rrs, v. split; [reflexivity |]. split; [exact V |]. destruct (verified_not_rrsig _ _ _ _ _ (parsed_held _ _ _ B P) V) as [HH S]. split.
      * intros (j & J & D). eapply result_needs_plain; eassumption.
      * apply result_shown; assumption.
    + right. destruct (error_shown x) as (j & J & D). exists x, j. split; [exact J |]. split; [exact D |]. right. exists rrs. auto.
  - injection H as <-. right. destruct (error_shown Invalid) as (j & J & D). exists Invalid, j. split; [exact J |]. split; [exact D |]. left. eauto.
Qed.
