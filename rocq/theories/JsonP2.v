(** UTF-8: the model's checks of text against the specification. *)
From Verif Require Import Base BaseP NameM JsonM JsonSpec.
From Coq Require Import String Lia.
Local Open Scope N_scope.

Lemma utf8_app a b : Utf8 a -> Utf8 b -> Utf8 (a ++ b).
Proof. intros (c & C & ->) (d & D & ->). exists (c ++ d). rewrite flat_map_app, Forall_app. auto. Qed.
Lemma utf8_ascii s : Forall (fun c => c < 128) s -> Utf8 s.
Proof.
  intros H. exists s. split; [eapply Forall_impl; [| exact H]; unfold scalar; cbn; lia |].
  induction H; [reflexivity |]. cbn [flat_map]. rewrite <- IHForall. unfold utf8_char. destruct (N.ltb_spec x 128); [reflexivity | lia].
Qed.

(** Base-64 digits of a code point. *)
Lemma parts2 c : c = 64 * (c / 64) + c mod 64 /\ c mod 64 < 64.
Proof. split; [apply N.div_mod; lia | apply N.mod_lt; lia]. Qed.
Lemma parts3 c : c = 4096 * (c / 4096) + 64 * ((c / 64) mod 64) + c mod 64 /\ (c / 64) mod 64 < 64 /\ c mod 64 < 64.
Proof.
  pose proof (parts2 c) as [A B]. pose proof (parts2 (c / 64)) as [C D].
  rewrite N.div_div in C by lia. change (64 * 64) with 4096 in C. split; [| auto].
  generalize dependent (c mod 64). generalize dependent ((c / 64) mod 64). generalize dependent (c / 4096). generalize dependent (c / 64). lia.
Qed.
Lemma parts4 c : c = 262144 * (c / 262144) + 4096 * ((c / 4096) mod 64) + 64 * ((c / 64) mod 64) + c mod 64 /\
  (c / 4096) mod 64 < 64 /\ (c / 64) mod 64 < 64 /\ c mod 64 < 64.
Proof.
  pose proof (parts3 c) as [A B]. pose proof (parts2 (c / 4096)) as [C D].
  rewrite N.div_div in C by lia. change (4096 * 64) with 262144 in C. split; [| tauto].
  generalize dependent (c mod 64). generalize dependent ((c / 64) mod 64). generalize dependent ((c / 4096) mod 64). generalize dependent (c / 262144). generalize dependent (c / 4096). lia.
Qed.
Lemma digit_mod q d : d < 64 -> (64 * q + d) mod 64 = d.
Proof. intros H. symmetry. apply N.mod_unique with q; lia. Qed.
Lemma digit_div q d : d < 64 -> (64 * q + d) / 64 = q.
Proof. intros H. symmetry. apply N.div_unique with d; lia. Qed.

Ltac leb := repeat match goal with
  | |- context [?a <? ?b] => destruct (N.ltb_spec a b); try lia
  | |- context [?a <=? ?b] => destruct (N.leb_spec a b); try lia
  | |- context [?a =? ?b] => destruct (N.eqb_spec a b); try lia
  end.

Lemma utf8_ok_char c t : scalar c -> utf8_ok (utf8_char c ++ t) = utf8_ok t.
Proof.
  unfold scalar. intros SC. unfold utf8_char. destruct (N.ltb_spec c 128).
  { cbn [app utf8_ok]. destruct (N.ltb_spec c 128); [reflexivity | lia]. }
  destruct (N.ltb_spec c 2048).
  { pose proof (parts2 c) as [E B]. generalize dependent (c mod 64). generalize dependent (c / 64). intros q d E B.
    cbn [app utf8_ok]. unfold cont_byte. leb; reflexivity. }
  destruct (N.ltb_spec c 65536).
  { pose proof (parts3 c) as (E & B & D). generalize dependent (c mod 64). generalize dependent ((c / 64) mod 64). generalize dependent (c / 4096). intros q d e E B D.
    cbn [app utf8_ok]. unfold cont_byte. leb; try reflexivity. }
  pose proof (parts4 c) as (E & A & B & D). generalize dependent (c mod 64). generalize dependent ((c / 64) mod 64). generalize dependent ((c / 4096) mod 64). generalize dependent (c / 262144).
  intros q d E e A x B D. cbn [app utf8_ok]. unfold cont_byte. leb; try reflexivity.
Qed.
Lemma utf8_ok_flat cs : Forall scalar cs -> utf8_ok (flat_map utf8_char cs) = true.
Proof. induction 1; [reflexivity |]. cbn [flat_map]. rewrite utf8_ok_char; assumption. Qed.

Lemma utf8_char2 b c1 : 194 <= b <= 223 -> 128 <= c1 <= 191 -> exists c, scalar c /\ utf8_char c = [b; c1].
Proof.
  intros B C. exists (64 * (b - 192) + (c1 - 128)). split; [unfold scalar; lia |]. unfold utf8_char. rewrite digit_mod, digit_div by lia.
  leb. f_equal; [lia | f_equal; lia].
Qed.
Lemma utf8_char3 b c1 c2 : 224 <= b <= 239 -> 128 <= c1 <= 191 -> 128 <= c2 <= 191 -> (b = 224 -> 160 <= c1) -> (b = 237 -> c1 <= 159) ->
  exists c, scalar c /\ utf8_char c = [b; c1; c2].
Proof.
  intros B C1 C2 L H. exists (64 * (64 * (b - 224) + (c1 - 128)) + (c2 - 128)).
  split. { unfold scalar. destruct (N.eq_dec b 237); [lia |]. lia. }
  unfold utf8_char. change 4096 with (64 * 64). rewrite <- N.div_div by lia. rewrite digit_mod, !digit_div, digit_mod by lia.
  destruct (N.eq_dec b 224); leb; repeat (f_equal; try lia).
Qed.
Lemma utf8_char4 b c1 c2 c3 : 240 <= b <= 244 -> 128 <= c1 <= 191 -> 128 <= c2 <= 191 -> 128 <= c3 <= 191 -> (b = 240 -> 144 <= c1) -> (b = 244 -> c1 <= 143) ->
  exists c, scalar c /\ utf8_char c = [b; c1; c2; c3].
Proof.
  intros B C1 C2 C3 L H. exists (64 * (64 * (64 * (b - 240) + (c1 - 128)) + (c2 - 128)) + (c3 - 128)).
  split. { unfold scalar. destruct (N.eq_dec b 240), (N.eq_dec b 244); lia. }
  unfold utf8_char. change 262144 with (64 * (64 * 64)). change 4096 with (64 * 64). rewrite <- !N.div_div by lia. rewrite ?digit_mod, ?digit_div, ?digit_mod, ?digit_div, ?digit_mod, ?digit_div, ?digit_mod by lia.
  destruct (N.eq_dec b 240); leb; repeat (f_equal; try lia).
Qed.

Lemma cont_spec c : cont_byte c = true -> 128 <= c <= 191.
Proof. unfold cont_byte. rewrite Bool.andb_true_iff, !N.leb_le. auto. Qed.

Lemma utf8_ok_decode n : forall s, (List.length s <= n)%nat -> utf8_ok s = true -> Utf8 s.
Proof.
  induction n; intros s L U.
  { destruct s; [exists []; split; [constructor | reflexivity] | cbn in L; lia]. }
  assert (STEP : forall h t, (exists c, scalar c /\ utf8_char c = h) -> h <> [] -> s = h ++ t -> utf8_ok t = true -> Utf8 s).
  { intros h t (c & SC & E) NE -> UT. destruct (IHn t) as (cs & F & ->).
    - rewrite app_length in L. destruct h; [congruence | cbn [List.length] in L; lia].
    - exact UT.
    - exists (c :: cs). split; [constructor; assumption |]. cbn [flat_map]. rewrite E. reflexivity. }
  destruct s as [| b t]; [exists []; split; [constructor | reflexivity] |]. cbn [utf8_ok] in U.
  destruct (N.ltb_spec b 128).
  { apply (STEP [b] t); [| discriminate | reflexivity | exact U]. exists b. split; [unfold scalar; lia |]. unfold utf8_char. destruct (N.ltb_spec b 128); [reflexivity | lia]. }
  destruct ((194 <=? b) && (b <=? 223)) eqn:R2.
  { apply Bool.andb_true_iff in R2 as [A B]. apply N.leb_le in A, B. destruct t as [| c1 t]; [discriminate |]. apply Bool.andb_true_iff in U as [C1 U]. apply cont_spec in C1.
    apply (STEP [b; c1] t); [apply utf8_char2; lia | discriminate | reflexivity | exact U]. }
  destruct ((224 <=? b) && (b <=? 239)) eqn:R3.
  { apply Bool.andb_true_iff in R3 as [A B]. apply N.leb_le in A, B. destruct t as [| c1 [| c2 t]]; try discriminate.
    apply Bool.andb_true_iff in U as [U UT]. apply Bool.andb_true_iff in U as [U X2]. apply Bool.andb_true_iff in U as [U X1]. apply Bool.andb_true_iff in U as [C1 C2]. apply cont_spec in C1, C2.
    apply (STEP [b; c1; c2] t); [apply utf8_char3; try lia | discriminate | reflexivity | exact UT].
    - intros ->. change (224 =? 224) with true in X1. cbn in X1. apply N.leb_le, X1.
    - intros ->. change (237 =? 237) with true in X2. cbn in X2. apply N.leb_le, X2. }
  destruct ((240 <=? b) && (b <=? 244)) eqn:R4; [| discriminate].
  { apply Bool.andb_true_iff in R4 as [A B]. apply N.leb_le in A, B. destruct t as [| c1 [| c2 [| c3 t]]]; try discriminate.
    apply Bool.andb_true_iff in U as [U UT]. apply Bool.andb_true_iff in U as [U X2]. apply Bool.andb_true_iff in U as [U X1]. apply Bool.andb_true_iff in U as [U C3]. apply Bool.andb_true_iff in U as [C1 C2]. apply cont_spec in C1, C2, C3.
    apply (STEP [b; c1; c2; c3] t); [apply utf8_char4; try lia | discriminate | reflexivity | exact UT].
    - intros ->. change (240 =? 240) with true in X1. cbn in X1. apply N.leb_le, X1.
    - intros ->. change (244 =? 244) with true in X2. cbn in X2. apply N.leb_le, X2. }
Qed.

Lemma utf8_ok_spec s : utf8_ok s = true <-> Utf8 s.
Proof.
  split; [apply (utf8_ok_decode (List.length s)); lia |]. intros (cs & F & ->). apply utf8_ok_flat, F.
Qed.

(** ** Harmless text *)
Definition good_char (c : N) : Prop := ~ control c /\ c <> 34 /\ c <> 92.

Lemma plain_cont x t : 128 <= x -> x <> 194 -> json_plain (x :: t) = json_plain t.
Proof. intros A B. cbn [json_plain]. change dquote with 34. leb. reflexivity. Qed.

Lemma plain_char c t : scalar c -> json_plain (utf8_char c ++ t) = true <-> good_char c /\ json_plain t = true.
Proof.
  unfold scalar, good_char, control. intros SC. unfold utf8_char. destruct (N.ltb_spec c 128).
  { cbn [app json_plain]. change dquote with 34. rewrite Bool.andb_true_iff, Bool.negb_true_iff, !Bool.orb_false_iff, N.ltb_ge, !N.eqb_neq.
    destruct (N.eqb_spec c 194); [lia |]. cbn [andb]. intuition lia. }
  destruct (N.ltb_spec c 2048).
  { pose proof (parts2 c) as [E B]. generalize dependent (c mod 64). generalize dependent (c / 64). intros q d E B. cbn [app].
    destruct (N.eq_dec q 2) as [-> | NQ].
    - change (192 + 2) with 194. 
      change (json_plain (194 :: 128 + d :: t)) with (negb ((194 <? 32) || (194 =? 127) || (194 =? 34) || (194 =? 92) || ((194 =? 194) && ((128 <=? 128 + d) && (128 + d <=? 159)))) && json_plain (128 + d :: t)).
      rewrite plain_cont by lia. change (194 <? 32) with false. change (194 =? 127) with false. change (194 =? 34) with false. change (194 =? 92) with false. change (194 =? 194) with true.
      cbn [orb andb]. rewrite Bool.andb_true_iff, Bool.negb_true_iff, Bool.andb_false_iff, !N.leb_gt. intuition lia.
    - rewrite plain_cont, plain_cont by lia. intuition lia. }
  destruct (N.ltb_spec c 65536).
  { pose proof (parts3 c) as (E & B & D). generalize dependent (c mod 64). generalize dependent ((c / 64) mod 64). generalize dependent (c / 4096). intros q d e E B D. cbn [app].
    rewrite !plain_cont by lia. intuition lia. }
  pose proof (parts4 c) as (E & A & B & D). generalize dependent (c mod 64). generalize dependent ((c / 64) mod 64). generalize dependent ((c / 4096) mod 64). generalize dependent (c / 262144).
  intros q d E e A x B D. cbn [app]. rewrite !plain_cont by lia. intuition lia.
Qed.

Lemma plain_flat cs : Forall scalar cs -> (json_plain (flat_map utf8_char cs) = true <-> Forall good_char cs).
Proof.
  induction 1; [split; [constructor | reflexivity] |]. cbn [flat_map]. rewrite plain_char, IHForall by assumption.
  split; [intros [A B]; constructor; assumption | intros A; inversion A; auto].
Qed.

Lemma harmless_spec s : utf8_ok s && json_plain s = true <-> harmless s.
Proof.
  rewrite Bool.andb_true_iff, utf8_ok_spec. split.
  - intros [(cs & F & ->) P]. apply plain_flat in P; [| exact F]. exists cs. split; [| reflexivity].
    rewrite Forall_forall in *. intros c I. specialize (F c I). specialize (P c I). unfold good_char in P. tauto.
  - intros (cs & F & ->). assert (SC : Forall scalar cs) by (eapply Forall_impl; [| exact F]; cbn; tauto).
    split; [exists cs; auto |]. apply plain_flat; [exact SC |]. eapply Forall_impl; [| exact F]. unfold good_char. cbn. tauto.
Qed.

(** Harmless text needs no escapes. *)
Lemma plain_str s : json_plain s = true -> Str s s.
Proof.
  induction s as [| c s IH]; intros H; [constructor |]. cbn [json_plain] in H. apply Bool.andb_true_iff in H as [H P].
  rewrite Bool.negb_true_iff, !Bool.orb_false_iff, N.ltb_ge, !N.eqb_neq in H. change dquote with 34 in H. apply Str_raw; [tauto | tauto | tauto | exact (IH P)].
Qed.
