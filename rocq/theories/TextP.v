(** [dec] prints the decimal numeral. *)
From Verif Require Import Base JsonM TextSpec.
From Coq Require Import Lia.
Local Open Scope N_scope.

Definition dv (v : N) (s : list N) := fold_left (fun v d => 10 * v + (d - 48)) s v.

Lemma dv_app v a b : dv v (a ++ b) = dv (dv v a) b.
Proof. apply fold_left_app. Qed.

(** Every step of the loop puts one more digit in front; [p] stands for the part already consumed. *)
Lemma dec_aux_spec f : forall n acc, n < 2 ^ N.of_nat f -> (0 < N.of_nat f) ->
  exists p, dec_aux f n acc = p ++ acc /\ p <> [] /\ Forall is_digit p /\ digits_value p = n /\ (p = [48] \/ hd 48 p <> 48).
Proof.
  induction f; intros n acc Hn Hf; [cbn in Hf; lia |].
  cbn [dec_aux]. pose proof (N.div_mod n 10 ltac:(lia)) as DM. pose proof (N.mod_lt n 10 ltac:(lia)) as ML.
  generalize dependent (n mod 10). generalize dependent (n / 10). intros d m DM ML.
  destruct (N.eqb_spec d 0) as [-> | NZ].
  - exists [48 + m]. repeat split; try discriminate.
    + constructor; [unfold is_digit; lia | constructor].
    + unfold digits_value. cbn [fold_left]. lia.
    + destruct (N.eq_dec m 0) as [-> | ?]; [left; reflexivity | right; cbn [hd]; lia].
  - assert (E : 2 ^ N.of_nat (S f) = 2 * 2 ^ N.of_nat f) by (rewrite Nat2N.inj_succ, N.pow_succ_r'; reflexivity).
    rewrite E in Hn. assert (D : d < 2 ^ N.of_nat f) by lia.
    assert (F : 0 < N.of_nat f). { destruct f; [cbn in D; lia | lia]. }
    destruct (IHf d ((48 + m) :: acc) D F) as (p & -> & P1 & P2 & P3 & P4).
    exists (p ++ [48 + m]). rewrite <- app_assoc. repeat split.
    + intros C. destruct p; discriminate.
    + apply Forall_app. split; [assumption | constructor; [unfold is_digit; lia | constructor]].
    + unfold digits_value in *. rewrite fold_left_app, P3. cbn [fold_left]. lia.
    + right. destruct p; [congruence |]. destruct P4 as [P4 | P4]; [| exact P4].
      injection P4 as -> ->. exfalso. unfold digits_value in P3. cbn [fold_left] in P3. lia.
Qed.

Lemma dec_decimal n : Decimal n (dec n).
Proof.
  unfold dec. destruct (dec_aux_spec (S (N.to_nat (N.log2 n))) n []) as (p & E & P1 & P2 & P3 & P4).
  - rewrite Nat2N.inj_succ, N2Nat.id. destruct (N.eq_dec n 0) as [-> | NZ]; [reflexivity |].
    apply N.log2_spec. lia.
  - lia.
  - rewrite E, app_nil_r. repeat split; assumption.
Qed.

(** The numeral of a number is unique. *)
Lemma dv_bound s : Forall is_digit s -> forall v, dv v s < (v + 1) * 10 ^ len s /\ v * 10 ^ len s <= dv v s.
Proof.
  induction 1 as [| d s Hd Hs IH]; intros v; unfold dv; cbn [fold_left].
  - unfold len. cbn. lia.
  - destruct (IH (10 * v + (d - 48))) as [A B]. unfold dv in *.
    replace (len (d :: s)) with (N.succ (len s)) by (unfold len; cbn [length]; lia). rewrite N.pow_succ_r'.
    unfold is_digit in Hd. generalize dependent (10 ^ len s). intros P A B. generalize dependent (fold_left (fun v0 d0 => 10 * v0 + (d0 - 48)) s (10 * v + (d - 48))). intros X.
    split; nia.
Qed.

Lemma dv_inj a b : Forall is_digit a -> Forall is_digit b -> len a = len b -> forall v w, dv v a = dv w b -> v = w /\ a = b.
Proof.
  intros Ha. revert b. induction Ha as [| d a Hd Ha IH]; intros b Hb L v w E.
  - destruct b; [| cbv in L; discriminate]. cbn in E. auto.
  - destruct b as [| c b]; [cbv in L; discriminate |]. inversion Hb; subst. 
    unfold dv in E. cbn [fold_left] in E. destruct (IH b H2 ltac:(unfold len in *; cbn [length] in L; lia) _ _ E) as [E1 ->].
    unfold is_digit in *. assert (v = w /\ d = c) by lia. destruct H as [-> ->]. auto.
Qed.

Lemma decimal_unique n a b : Decimal n a -> Decimal n b -> a = b.
Proof.
  intros (A1 & A2 & A3 & A4) (B1 & B2 & B3 & B4).
  assert (L : forall x, Forall is_digit x -> x <> [] -> (x = [48] \/ hd 48 x <> 48) -> (x = [48] /\ digits_value x = 0) \/ (10 ^ (len x - 1) <= digits_value x < 10 ^ len x /\ digits_value x <> 0)).
  { intros x F NE [-> | Z]; [left; split; reflexivity |]. right. destruct x as [| d x]; [congruence |]. cbn [hd] in Z. inversion F; subst.
    pose proof (dv_bound x H2 (d - 48)) as [U V]. unfold digits_value. cbn [fold_left]. rewrite N.mul_0_r, N.add_0_l. unfold dv in *.
    replace (len (d :: x) - 1) with (len x) by (unfold len; cbn [length]; lia).
    replace (len (d :: x)) with (N.succ (len x)) by (unfold len; cbn [length]; lia). rewrite N.pow_succ_r'.
    unfold is_digit in H1. assert (0 < 10 ^ len x) by (apply N.neq_0_lt_0, N.pow_nonzero; lia). nia. }
  destruct (L a A2 A1 A4) as [[-> Za] | [Ra Za]], (L b B2 B1 B4) as [[-> Zb] | [Rb Zb]]; try congruence.
  rewrite A3 in Ra. rewrite B3 in Rb.
  assert (E : len a = len b).
  { assert (1 <= len a) by (destruct a; [congruence | unfold len; cbn [length]; lia]). assert (1 <= len b) by (destruct b; [congruence | unfold len; cbn [length]; lia]).
    destruct (N.lt_trichotomy (len a) (len b)) as [G | [G | G]]; [| exact G |].
    - assert (10 ^ len a <= 10 ^ (len b - 1)) by (apply N.pow_le_mono_r; lia). lia.
    - assert (10 ^ len b <= 10 ^ (len a - 1)) by (apply N.pow_le_mono_r; lia). lia. }
  destruct (dv_inj a b A2 B2 E 0 0) as [_ R]; [unfold dv; unfold digits_value in *; congruence | exact R].
Qed.
