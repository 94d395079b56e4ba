(** Proofs for C14-C16. *)
From Verif Require Import Base NameM WireM RRM SerM Base32M ValM RecSpec CodecSpec BaseP WireP BitmapP RecP RecP2.
From Coq Require Import Arith String.
Local Open Scope N_scope.
Local Arguments N.add : simpl never.
Local Arguments N.mul : simpl never.
Local Arguments N.modulo : simpl never.
Local Arguments N.div : simpl never.

(** ** Key tags *)
Lemma word_sum_bound l : is_bytes l -> word_sum l <= 65280 * len l.
Proof.
  assert (H : forall n l, (List.length l <= n)%nat -> is_bytes l -> word_sum l <= 65280 * len l).
  { clear. induction n as [|n IH]; intros [|a [|b t]] Hl H; cbn [word_sum]; unfold len; cbn [List.length] in *; try lia.
    - inversion_clear H. unfold is_u8 in *. lia.
    - inversion_clear H. inversion_clear H1. unfold is_u8 in *. specialize (IH t ltac:(lia) H2). unfold len in IH. lia. }
  apply (H (List.length l)). lia.
Qed.

Lemma key_tag_loop_sum n : forall l idx res, (List.length l <= n)%nat -> idx mod 2 = 0 ->
  res + word_sum l < 2 ^ 32 ->
  key_tag_loop idx l res = res + word_sum l /\ key_tag_dbg_loop idx l res = Ok (res + word_sum l).
Proof.
  induction n as [|n IH]; intros [|a [|b t]] idx res Hn He Hs; cbn [List.length word_sum] in *; try lia;
    cbn [key_tag_loop key_tag_dbg_loop]; rewrite ?He; cbn [N.eqb]; rewrite ?N.add_0_r; auto.
  - rewrite N.shiftl_mul_pow2. change (2 ^ 8) with 256. rewrite N.mod_small by lia. unfold add_u32.
    rewrite (proj2 (N.ltb_lt _ _)) by lia. auto.
  - assert (Ho : (idx + 1) mod 2 = 1).
    { rewrite N.add_mod by discriminate. rewrite He. reflexivity. }
    assert (He2 : (idx + 1 + 1) mod 2 = 0).
    { rewrite N.add_mod by discriminate. rewrite Ho. reflexivity. }
    rewrite Ho. cbn [N.eqb]. rewrite N.shiftl_mul_pow2. change (2 ^ 8) with 256.
    rewrite (N.mod_small (res + a * 256)) by lia. unfold add_u32.
    rewrite (proj2 (N.ltb_lt (res + a * 256) _)) by lia. cbn [obind].
    rewrite (N.mod_small (res + a * 256 + b)) by lia.
    rewrite (proj2 (N.ltb_lt (res + a * 256 + b) _)) by lia. cbn [obind].
    destruct (IH t (idx + 1 + 1) (res + a * 256 + b) ltac:(lia) He2 ltac:(lia)) as [H1 H2].
    rewrite H1, H2. split; [lia|f_equal; lia].
Qed.

Lemma key_tag_spec k : is_u16 (dk_flags k) -> is_u8 (dk_protocol k) -> is_u8 (dk_alg k) ->
  is_bytes (dk_pubkey k) -> len (dk_pubkey k) <= 65531 ->
  key_tag k = rfc4034_tag (u16 (dk_flags k) ++ [dk_protocol k; dk_alg k] ++ dk_pubkey k)
  /\ key_tag_dbg k = Ok (key_tag k).
Proof.
  unfold is_u16, is_u8. intros Hf Hp Ha Hb Hl.
  pose proof (word_sum_bound _ Hb) as Hw.
  assert (Hbd : word_sum (dk_pubkey k) <= 65280 * 65531) by nia.
  unfold key_tag, key_tag_dbg, rfc4034_tag, u16. cbn [app word_sum].
  rewrite N.shiftl_mul_pow2. change (2 ^ 8) with 256.
  unfold add_u32 at 1. rewrite (proj2 (N.ltb_lt _ _)) by lia. cbn [obind].
  unfold add_u32 at 1. rewrite (proj2 (N.ltb_lt _ _)) by lia. cbn [obind].
  rewrite (N.mod_small (dk_flags k + _)) by lia. rewrite (N.mod_small (_ + dk_alg k)) by lia.
  destruct (key_tag_loop_sum (List.length (dk_pubkey k)) (dk_pubkey k) 0
     (dk_flags k + dk_protocol k * 256 + dk_alg k) (le_n _) eq_refl ltac:(lia)) as [H1 H2].
  rewrite H1, H2. cbn [obind]. set (s := dk_flags k + dk_protocol k * 256 + dk_alg k + word_sum (dk_pubkey k)) in *.
  assert (Hs : s <= 4 * 65280 + 255 + 65280 * 65531) by lia.
  replace (dk_flags k / 256 * 256 + dk_flags k mod 256 + _) with s.
  2:{ pose proof (N.div_mod (dk_flags k) 256 ltac:(discriminate)). unfold s. lia. }
  change 65535 with (N.ones 16). rewrite !N.land_ones, N.shiftr_div_pow2. change (2 ^ 16) with 65536.
  assert (s / 65536 < 65536) by (apply N.div_lt_upper_bound; lia).
  rewrite (N.mod_small (s / 65536)) by auto.
  unfold add_u32. rewrite (proj2 (N.ltb_lt _ _)) by lia. cbn [obind].
  rewrite (N.mod_small (s + _)) by lia. split; [reflexivity|]. rewrite N.land_ones. reflexivity.
Qed.

(** Keys of any length. *)
Lemma key_tag_loop_any n : forall l idx res, (List.length l <= n)%nat -> idx mod 2 = 0 -> res < 2 ^ 32 ->
  key_tag_loop idx l res = (res + word_sum l) mod 2 ^ 32 /\ (2 ^ 32 <= res + word_sum l -> key_tag_dbg_loop idx l res = Panic).
Proof.
  assert (MM : forall a b, (a mod 2 ^ 32 + b) mod 2 ^ 32 = (a + b) mod 2 ^ 32) by (intros a b; apply N.add_mod_idemp_l; discriminate).
  induction n as [|n IH]; intros [|a [|b t]] idx res Hn He Hs; cbn [List.length word_sum] in *; try lia;
    cbn [key_tag_loop key_tag_dbg_loop]; rewrite ?He; cbn [N.eqb]; rewrite ?N.add_0_r; try (split; [symmetry; apply N.mod_small; exact Hs | lia]).
  - rewrite N.shiftl_mul_pow2. change (2 ^ 8) with 256. split; [reflexivity |]. intros G. unfold add_u32. rewrite (proj2 (N.ltb_ge _ _) G). reflexivity.
  - assert (Ho : (idx + 1) mod 2 = 1).
    { rewrite N.add_mod by discriminate. rewrite He. reflexivity. }
    assert (He2 : (idx + 1 + 1) mod 2 = 0).
    { rewrite N.add_mod by discriminate. rewrite Ho. reflexivity. }
    rewrite Ho. cbn [N.eqb]. rewrite N.shiftl_mul_pow2. change (2 ^ 8) with 256. split.
    + destruct (IH t (idx + 1 + 1) (((res + a * 256) mod 2 ^ 32 + b) mod 2 ^ 32) ltac:(lia) He2 ltac:(apply N.mod_lt; discriminate)) as [H _].
      rewrite H, !MM. rewrite <- !N.add_assoc. rewrite MM. f_equal. lia.
    + intros G. unfold add_u32. destruct (res + a * 256 <? 2 ^ 32) eqn:E1; cbn [obind]; [| reflexivity]. destruct (res + a * 256 + b <? 2 ^ 32) eqn:E2; cbn [obind]; [| reflexivity].
      apply N.ltb_lt in E2. destruct (IH t (idx + 1 + 1) (res + a * 256 + b) ltac:(lia) He2 E2) as [_ H]. apply H. lia.
Qed.
Lemma tag_mod s : N.land ((s mod 2 ^ 32 + N.land (N.shiftr (s mod 2 ^ 32) 16) 65535) mod 2 ^ 32) 65535 = (s + (s / 65536) mod 65536) mod 65536.
Proof.
  change 65535 with (N.ones 16). rewrite !N.land_ones, N.shiftr_div_pow2. change (2 ^ 16) with 65536. change (2 ^ 32) with (65536 * 65536).
  rewrite (N.mod_mul_r s) by discriminate. set (h := (s / 65536) mod 65536). assert (H : h < 65536) by (apply N.mod_lt; discriminate).
  assert (L : s mod 65536 < 65536) by (apply N.mod_lt; discriminate).
  replace ((s mod 65536 + 65536 * h) / 65536) with h by (rewrite (N.mul_comm 65536 h), N.div_add, (N.div_small (s mod 65536)) by (discriminate || exact L); reflexivity).
  rewrite (N.mod_small h) by exact H.
  rewrite (N.mod_mul_r (_ + _ + _)) by discriminate. rewrite (N.mul_comm 65536 ((_ / _) mod _)), N.mod_add, N.mod_mod by discriminate.
  replace (s mod 65536 + 65536 * h + h) with (s mod 65536 + h + h * 65536) by lia. rewrite N.mod_add by discriminate. rewrite N.add_mod_idemp_l by discriminate. reflexivity.
Qed.
Lemma key_tag_any k : is_u16 (dk_flags k) -> is_u8 (dk_protocol k) -> is_u8 (dk_alg k) ->
  let s := word_sum (u16 (dk_flags k) ++ [dk_protocol k; dk_alg k] ++ dk_pubkey k) in
  key_tag k = rfc4034_tag (u16 (dk_flags k) ++ [dk_protocol k; dk_alg k] ++ dk_pubkey k) /\
  key_tag_dbg k = if s + s / 65536 <? 2 ^ 32 then Ok (key_tag k) else Panic.
Proof.
  intros Hf Hp Ha s. unfold is_u16, is_u8 in *.
  assert (ES : s = dk_flags k + dk_protocol k * 256 + dk_alg k + word_sum (dk_pubkey k)).
  { unfold s, u16. cbn [app word_sum]. pose proof (N.div_mod (dk_flags k) 256 ltac:(discriminate)). lia. }
  destruct (key_tag_loop_any (List.length (dk_pubkey k)) (dk_pubkey k) 0 (dk_flags k + dk_protocol k * 256 + dk_alg k) (le_n _) eq_refl ltac:(lia)) as [H1 H2]. rewrite <- ES in H1, H2.
  assert (KT : key_tag k = rfc4034_tag (u16 (dk_flags k) ++ [dk_protocol k; dk_alg k] ++ dk_pubkey k)).
  { unfold rfc4034_tag. fold s. unfold key_tag. rewrite N.shiftl_mul_pow2. change (2 ^ 8) with 256. rewrite (N.mod_small (dk_flags k + _)) by lia. rewrite (N.mod_small (_ + dk_alg k)) by lia. rewrite H1. apply tag_mod. }
  split; [exact KT |]. rewrite KT. unfold rfc4034_tag. fold s. unfold key_tag_dbg. rewrite N.shiftl_mul_pow2. change (2 ^ 8) with 256.
  unfold add_u32 at 1. rewrite (proj2 (N.ltb_lt _ _)) by lia. cbn [obind]. unfold add_u32 at 1. rewrite (proj2 (N.ltb_lt _ _)) by lia. cbn [obind].
  destruct (N.lt_ge_cases s (2 ^ 32)) as [LT | GE].
  - destruct (key_tag_loop_sum (List.length (dk_pubkey k)) (dk_pubkey k) 0 (dk_flags k + dk_protocol k * 256 + dk_alg k) (le_n _) eq_refl ltac:(lia)) as [_ H]. rewrite <- ES in H. rewrite H. cbn [obind].
    change 65535 with (N.ones 16). rewrite !N.land_ones, N.shiftr_div_pow2. change (2 ^ 16) with 65536.
    assert (SM : s / 65536 < 65536) by (apply N.div_lt_upper_bound; lia). rewrite (N.mod_small (s / 65536)) by exact SM.
    unfold add_u32. destruct (s + s / 65536 <? 2 ^ 32); cbn [obind]; [rewrite N.land_ones |]; reflexivity.
  - rewrite (H2 GE). cbn [obind]. rewrite (proj2 (N.ltb_ge (s + s / 65536) (2 ^ 32)) (N.le_trans _ _ _ GE (N.le_add_r _ _))). reflexivity.
Qed.

(** ** RSA keys *)
Lemma rsa_spec pk md ex : is_bytes pk ->
  (bytes_to_rsa_pk pk = Some (md, ex) <-> RsaLayout pk md ex /\ md <> [] /\ 4 <= len pk).
Proof.
  intros Hb. split.
  - intros H. destruct pk as [|b0 [|b1 [|b2 [|b3 t]]]]; try discriminate. cbn [bytes_to_rsa_pk] in H.
    assert (H4 : 4 <= len (b0 :: b1 :: b2 :: b3 :: t)) by (rewrite !len_cons; lia).
    assert (Hu : b0 < 256 /\ b1 < 256 /\ b2 < 256).
    { inversion Hb as [|? ? U0 Hb1]. inversion Hb1 as [|? ? U1 Hb2]. inversion Hb2 as [|? ? U2 Hb3]. auto. }
    destruct (b0 =? 0) eqn:E0.
    + apply N.eqb_eq in E0. subst b0.
      destruct (_ <=? _) eqn:El in H; [discriminate|]. apply N.leb_gt in El. inversion H; subst md ex. clear H.
      change (dropN 3 (0 :: b1 :: b2 :: b3 :: t)) with (b3 :: t).
      assert (HL : b1 * 256 + b2 <= len (b3 :: t)) by (rewrite !len_cons in El; rewrite len_cons; lia).
      split; [|split; [|exact H4]].
      * replace (dropN (3 + (b1 * 256 + b2)) (0 :: b1 :: b2 :: b3 :: t)) with (dropN (b1 * 256 + b2) (b3 :: t)).
        2:{ unfold dropN. rewrite (N2Nat.inj_add 3). reflexivity. }
        set (l := b3 :: t) in *.
        assert (Htl : len (takeN (b1 * 256 + b2) l) = b1 * 256 + b2) by (rewrite len_takeN; lia).
        replace (0 :: b1 :: b2 :: l) with (0 :: u16 (length_of (takeN (b1 * 256 + b2) l)) ++ takeN (b1 * 256 + b2) l ++ dropN (b1 * 256 + b2) l).
        { apply RL_long. change length_of with (@len N). lia. }
        change (length_of (takeN (b1 * 256 + b2) l)) with (len (takeN (b1 * 256 + b2) l)). rewrite Htl. unfold u16.
        rewrite N.div_add_l by discriminate. rewrite (N.div_small b2) by lia. rewrite N.add_0_r.
        replace ((b1 * 256 + b2) mod 256) with b2 by (rewrite N.add_comm, N.mod_add by discriminate; symmetry; apply N.mod_small; lia).
        cbn [app]. unfold takeN, dropN. rewrite firstn_skipn. reflexivity.
      * intros Hn. apply (f_equal (@len N)) in Hn. rewrite len_dropN in Hn.
        rewrite !len_cons in *. cbn [len List.length N.of_nat] in Hn. lia.
    + apply N.eqb_neq in E0.
      destruct (_ <=? _) eqn:El in H; [discriminate|]. apply N.leb_gt in El. inversion H; subst md ex. clear H.
      change (dropN 1 (b0 :: b1 :: b2 :: b3 :: t)) with (b1 :: b2 :: b3 :: t).
      replace (dropN (1 + b0) (b0 :: b1 :: b2 :: b3 :: t)) with (dropN b0 (b1 :: b2 :: b3 :: t)).
      2:{ unfold dropN. rewrite (N2Nat.inj_add 1). reflexivity. }
      rewrite len_cons in El. set (l := b1 :: b2 :: b3 :: t) in *.
      assert (Htl : len (takeN b0 l) = b0) by (rewrite len_takeN; lia).
      split; [|split; [|exact H4]].
      * replace (b0 :: l) with (length_of (takeN b0 l) :: takeN b0 l ++ dropN b0 l).
        { apply RL_short. change length_of with (@len N). lia. }
        change (length_of (takeN b0 l)) with (len (takeN b0 l)). rewrite Htl.
        unfold takeN, dropN. rewrite firstn_skipn. reflexivity.
      * intros Hn. apply (f_equal (@len N)) in Hn. rewrite len_dropN in Hn. cbn [len List.length N.of_nat] in Hn. lia.
  - intros (HL & Hn & H4).
    assert (Hlm : 1 <= len md) by (destruct md; [congruence|rewrite len_cons; lia]).
    assert (G : forall (b0 : N) l, 4 <= len (b0 :: l) -> exists b1 b2 b3 t, l = b1 :: b2 :: b3 :: t).
    { clear. intros b0 [|b1 [|b2 [|b3 t]]] H; [unfold len in H; cbn in H; lia ..|]. eauto. }
    destruct HL as [ex md He|ex md He]; clear Hb.
    + destruct (G _ _ H4) as (b1 & b2 & b3 & t & E). rewrite E. cbn [bytes_to_rsa_pk].
      destruct (N.eqb_spec (length_of ex) 0) as [E0|_]; [lia|].
      rewrite <- E. change (length_of ex) with (len ex).
      rewrite (proj2 (N.leb_gt _ _)) by (rewrite len_cons, len_app; lia).
      unfold dropN, takeN. rewrite N2Nat.inj_add, len_length. change (N.to_nat 1) with 1%nat. cbn [Nat.add skipn].
      rewrite skipn_app, skipn_all, Nat.sub_diag, firstn_app, firstn_all, Nat.sub_diag. cbn. rewrite app_nil_r. reflexivity.
    + unfold u16 in *. cbn [app] in *. destruct (G _ _ H4) as (b1 & b2 & b3 & t & E). inversion E; subst b1 b2.
      rewrite H2. cbn [bytes_to_rsa_pk N.eqb]. change (length_of ex) with (len ex) in *.
      replace (len ex / 256 * 256 + len ex mod 256) with (len ex) by (pose proof (N.div_mod (len ex) 256 ltac:(discriminate)); lia).
      rewrite <- H2. rewrite (proj2 (N.leb_gt _ _)) by (rewrite !len_cons, len_app; lia).
      unfold dropN, takeN. rewrite N2Nat.inj_add, len_length. change (N.to_nat 3) with 3%nat. cbn [Nat.add skipn].
      rewrite skipn_app, skipn_all, Nat.sub_diag, firstn_app, firstn_all, Nat.sub_diag. cbn. rewrite app_nil_r. reflexivity.
Qed.

Lemma rsa_strict pk md ex : is_bytes pk -> RsaStrict pk md ex -> md <> [] -> 4 <= len pk ->
  bytes_to_rsa_pk pk = Some (md, ex).
Proof.
  intros Hb H Hn H4. apply rsa_spec; auto. split; auto. destruct H; constructor; lia.
Qed.

(** ** Base32hex *)
Definition rangeN (n : nat) := map N.of_nat (seq 0 n).
Lemma rangeN_in n x : x < N.of_nat n -> In x (rangeN n).
Proof. intros H. apply in_map_iff. exists (N.to_nat x). split; [lia|]. apply in_seq. lia. Qed.
Lemma sweep1 (P : N -> bool) n : forallb P (rangeN n) = true -> forall x, x < N.of_nat n -> P x = true.
Proof. intros H x Hx. rewrite forallb_forall in H. apply H, rangeN_in, Hx. Qed.
Definition bleqb (a b : list bool) : bool := if list_eq_dec Bool.bool_dec a b then true else false.
Lemma bleqb_eq a b : bleqb a b = true -> a = b.
Proof. unfold bleqb. destruct (list_eq_dec _ _ _); congruence. Qed.

Lemma dec_byte0 a b : a < 32 -> b < 32 ->
  bits_of 8 (as_u8 (N.lor (N.shiftl a 3) (N.shiftr b 2))) = bits_of 5 a ++ firstn 3 (bits_of 5 b).
Proof.
  intros Ha Hb. apply bleqb_eq.
  apply (sweep1 (fun b => bleqb (bits_of 8 (as_u8 (N.lor (N.shiftl a 3) (N.shiftr b 2)))) (bits_of 5 a ++ firstn 3 (bits_of 5 b))) 32); auto.
  revert a Ha. apply (sweep1 (fun a => forallb _ (rangeN 32)) 32). vm_compute. reflexivity.
Qed.
Lemma dec_byte2 a b : a < 32 -> b < 32 ->
  bits_of 8 (as_u8 (N.lor (N.shiftl a 4) (N.shiftr b 1))) = skipn 1 (bits_of 5 a) ++ firstn 4 (bits_of 5 b).
Proof.
  intros Ha Hb. apply bleqb_eq.
  apply (sweep1 (fun b => bleqb (bits_of 8 (as_u8 (N.lor (N.shiftl a 4) (N.shiftr b 1)))) (skipn 1 (bits_of 5 a) ++ firstn 4 (bits_of 5 b))) 32); auto.
  revert a Ha. apply (sweep1 (fun a => forallb _ (rangeN 32)) 32). vm_compute. reflexivity.
Qed.
Lemma dec_byte4 a b : a < 32 -> b < 32 ->
  bits_of 8 (as_u8 (N.lor (N.shiftl a 5) b)) = skipn 2 (bits_of 5 a) ++ bits_of 5 b.
Proof.
  intros Ha Hb. apply bleqb_eq.
  apply (sweep1 (fun b => bleqb (bits_of 8 (as_u8 (N.lor (N.shiftl a 5) b))) (skipn 2 (bits_of 5 a) ++ bits_of 5 b)) 32); auto.
  revert a Ha. apply (sweep1 (fun a => forallb _ (rangeN 32)) 32). vm_compute. reflexivity.
Qed.
Lemma dec_byte1 a b c : a < 32 -> b < 32 -> c < 32 ->
  bits_of 8 (as_u8 (N.lor (N.lor (N.shiftl a 6) (N.shiftl b 1)) (N.shiftr c 4)))
    = skipn 3 (bits_of 5 a) ++ bits_of 5 b ++ firstn 1 (bits_of 5 c).
Proof.
  intros Ha Hb Hc. apply bleqb_eq.
  apply (sweep1 (fun c => bleqb (bits_of 8 (as_u8 (N.lor (N.lor (N.shiftl a 6) (N.shiftl b 1)) (N.shiftr c 4)))) (skipn 3 (bits_of 5 a) ++ bits_of 5 b ++ firstn 1 (bits_of 5 c))) 32); auto.
  revert b Hb. apply (sweep1 (fun b => forallb _ (rangeN 32)) 32).
  revert a Ha. apply (sweep1 (fun a => forallb _ (rangeN 32)) 32). vm_compute. reflexivity.
Qed.
Lemma dec_byte3 a b c : a < 32 -> b < 32 -> c < 32 ->
  bits_of 8 (as_u8 (N.lor (N.lor (N.shiftl a 7) (N.shiftl b 2)) (N.shiftr c 3)))
    = skipn 4 (bits_of 5 a) ++ bits_of 5 b ++ firstn 2 (bits_of 5 c).
Proof.
  intros Ha Hb Hc. apply bleqb_eq.
  apply (sweep1 (fun c => bleqb (bits_of 8 (as_u8 (N.lor (N.lor (N.shiftl a 7) (N.shiftl b 2)) (N.shiftr c 3)))) (skipn 4 (bits_of 5 a) ++ bits_of 5 b ++ firstn 2 (bits_of 5 c))) 32); auto.
  revert b Hb. apply (sweep1 (fun b => forallb _ (rangeN 32)) 32).
  revert a Ha. apply (sweep1 (fun a => forallb _ (rangeN 32)) 32). vm_compute. reflexivity.
Qed.

Lemma bits5_split k v : bits_of 5 v = firstn k (bits_of 5 v) ++ skipn k (bits_of 5 v).
Proof. symmetry. apply firstn_skipn. Qed.

Lemma dec_chunk_bits8 v0 v1 v2 v3 v4 v5 v6 v7 :
  v0 < 32 -> v1 < 32 -> v2 < 32 -> v3 < 32 -> v4 < 32 -> v5 < 32 -> v6 < 32 -> v7 < 32 ->
  flat_map (bits_of 8) (b32_dec_chunk [v0; v1; v2; v3; v4; v5; v6; v7])
    = flat_map (bits_of 5) [v0; v1; v2; v3; v4; v5; v6; v7].
Proof.
  intros. unfold b32_dec_chunk. cbn [nth flat_map].
  rewrite dec_byte0, dec_byte1, dec_byte2, dec_byte3, dec_byte4 by assumption.
  rewrite <- !app_assoc.
  rewrite (bits5_split 3 v1) at 3. rewrite (bits5_split 1 v3) at 3. rewrite (bits5_split 4 v4) at 3.
  rewrite (bits5_split 2 v6) at 3. rewrite <- !app_assoc, ?app_nil_r. reflexivity.
Qed.

Lemma bits_len w v : List.length (bits_of w v) = N.to_nat w.
Proof. unfold bits_of. rewrite map_length, rev_length, seq_length. reflexivity. Qed.
Lemma flat_bits_len w l : List.length (flat_map (bits_of w) l) = (N.to_nat w * List.length l)%nat.
Proof. induction l; cbn [flat_map List.length]; [lia|]. rewrite app_length, bits_len, IHl. lia. Qed.

Lemma byte_bits_inj a b : a < 256 -> b < 256 -> bits_of 8 a = bits_of 8 b -> a = b.
Proof.
  assert (H : forall a, a < 256 -> fold_left (fun s (x : bool) => 2 * s + (if x then 1 else 0)) (bits_of 8 a) 0 = a).
  { intros x Hx. apply N.eqb_eq. revert x Hx. apply (sweep1 (fun x => _ =? _) 256). vm_compute. reflexivity. }
  intros Ha Hb E. rewrite <- (H a), <- (H b), E by auto. reflexivity.
Qed.
Lemma flat_bits_inj l1 : forall l2, is_bytes l1 -> is_bytes l2 ->
  flat_map (bits_of 8) l1 = flat_map (bits_of 8) l2 -> l1 = l2.
Proof.
  induction l1 as [|a t IH]; intros [|b u] H1 H2 E; auto.
  - apply (f_equal (@List.length bool)) in E. rewrite !flat_bits_len in E. cbn in E. lia.
  - apply (f_equal (@List.length bool)) in E. rewrite !flat_bits_len in E. cbn in E. lia.
  - inversion_clear H1. inversion_clear H2. cbn [flat_map] in E.
    apply app_inv_len in E; [|now unfold len; rewrite !bits_len]. destruct E as [E1 E2].
    f_equal; [apply byte_bits_inj|apply IH]; auto.
Qed.
Lemma zero_bits k : flat_map (bits_of 8) (repeat 0 k) = repeat false (8 * k).
Proof.
  induction k as [|k IH]; [reflexivity|]. cbn [repeat flat_map]. rewrite IH.
  change (bits_of 8 0) with (repeat false 8). rewrite <- repeat_app. f_equal. lia.
Qed.
Lemma zero_bits5 k : flat_map (bits_of 5) (repeat 0 k) = repeat false (5 * k).
Proof.
  induction k as [|k IH]; [reflexivity|]. cbn [repeat flat_map]. rewrite IH.
  change (bits_of 5 0) with (repeat false 5). rewrite <- repeat_app. f_equal. lia.
Qed.

(** Characters. *)
Definition digit_of (c : N) : option N :=
  if (48 <=? c) && (c <=? 57) then Some (c - 48)
  else if (65 <=? c) && (c <=? 86) then Some (c - 55) else if (97 <=? c) && (c <=? 118) then Some (c - 87) else None.
Definition digit_ok (c : N) : bool :=
  match b32_char_value c, digit_of c with Some a, Some b => a =? b | None, None => true | _, _ => false end.
Lemma char_value c : c < 256 -> forall v, b32_char_value c = Some v <-> hex_digit c v.
Proof.
  intros Hc v.
  assert (H : b32_char_value c = digit_of c).
  { assert (G : digit_ok c = true) by (revert c Hc; apply (sweep1 digit_ok 256); vm_compute; reflexivity).
    unfold digit_ok in G. destruct (b32_char_value c), (digit_of c); try discriminate; auto. apply N.eqb_eq in G. congruence. }
  unfold digit_of in H.
  rewrite H. unfold hex_digit.
  destruct ((48 <=? c) && (c <=? 57)) eqn:E1; [|destruct ((65 <=? c) && (c <=? 86)) eqn:E2; [|destruct ((97 <=? c) && (c <=? 118)) eqn:E3]];
    rewrite ?andb_true_iff, ?andb_false_iff, ?N.leb_le, ?N.leb_gt in *;
    (split; [intros G; inversion G; subst; lia|intros G; try (f_equal; lia); exfalso; lia]).
Qed.
Lemma hex_digit_lt c v : hex_digit c v -> v < 32.
Proof. unfold hex_digit. lia. Qed.
Lemma values_spec t : is_bytes t -> forall vs, b32_values t = Some vs <-> Forall2 hex_digit t vs.
Proof.
  induction 1 as [|c t Hc Ht IH]; intros vs; cbn [b32_values].
  - split; [intros G; inversion G; constructor|intros G; inversion G; reflexivity].
  - split.
    + destruct (b32_char_value c) eqn:E; [|discriminate]. destruct (b32_values t) eqn:E2; [|discriminate].
      intros G; inversion G; subst. constructor; [apply char_value; auto|apply IH; auto].
    + intros G. inversion G as [|? v ? r G1 G2]; subst. apply char_value in G1; auto. apply IH in G2. rewrite G1, G2. reflexivity.
Qed.
Lemma digits_lt t vs : Forall2 hex_digit t vs -> Forall (fun v => v < 32) vs.
Proof. induction 1; constructor; auto. eapply hex_digit_lt; eauto. Qed.

Lemma dec_chunk_bits vs : Forall (fun v => v < 32) vs -> (List.length vs <= 8)%nat ->
  flat_map (bits_of 8) (b32_dec_chunk vs) = flat_map (bits_of 5) (vs ++ repeat 0 (8 - List.length vs)).
Proof.
  intros H HL.
  assert (E : b32_dec_chunk vs = b32_dec_chunk (vs ++ repeat 0 (8 - List.length vs))).
  { unfold b32_dec_chunk.
    assert (Hn : forall i, nth i vs 0 = nth i (vs ++ repeat 0 (8 - List.length vs)) 0).
    { intros i. destruct (lt_dec i (List.length vs)).
      - rewrite app_nth1 by auto. reflexivity.
      - rewrite app_nth2, nth_overflow by lia. symmetry. apply nth_repeat. }
    rewrite <- !Hn. reflexivity. }
  rewrite E. set (ws := vs ++ repeat 0 (8 - List.length vs)).
  assert (Hw : Forall (fun v => v < 32) ws).
  { apply Forall_app. split; auto. apply Forall_forall. intros x Hx. apply repeat_spec in Hx. subst. reflexivity. }
  assert (Hl : List.length ws = 8%nat) by (unfold ws; rewrite app_length, repeat_length; lia).
  clearbody ws. clear -Hw Hl.
  destruct ws as [|v0 [|v1 [|v2 [|v3 [|v4 [|v5 [|v6 [|v7 [|]]]]]]]]]; try discriminate.
  repeat match goal with H : Forall _ (_ :: _) |- _ => apply Forall_cons_iff in H; destruct H end.
  apply dec_chunk_bits8; auto.
Qed.
Lemma dec_chunk_bytes vs : is_bytes (b32_dec_chunk vs).
Proof. unfold b32_dec_chunk, as_u8, is_bytes, is_u8. repeat constructor; apply N.mod_lt; discriminate. Qed.

Lemma Forall2_length {A B} (R : A -> B -> Prop) l1 l2 : Forall2 R l1 l2 -> List.length l1 = List.length l2.
Proof. induction 1; cbn; auto. Qed.
Lemma forall2_firstn {A B} (R : A -> B -> Prop) n l1 l2 : Forall2 R l1 l2 -> Forall2 R (firstn n l1) (firstn n l2).
Proof. intros H. revert n. induction H; intros [|n]; cbn; constructor; auto. Qed.
Lemma forall2_skipn {A B} (R : A -> B -> Prop) n l1 l2 : Forall2 R l1 l2 -> Forall2 R (skipn n l1) (skipn n l2).
Proof. intros H. revert n. induction H; intros [|n]; cbn; auto. Qed.
Lemma forall2_app_inv {A B} (R : A -> B -> Prop) l1 l2 m1 m2 : Forall2 R l1 m1 -> Forall2 R l2 m2 -> Forall2 R (l1 ++ l2) (m1 ++ m2).
Proof. apply Forall2_app. Qed.

Lemma forall_firstn {A} (P : A -> Prop) n l : Forall P l -> Forall P (firstn n l).
Proof. intros H. revert n. induction H; intros [|n]; cbn; constructor; auto. Qed.
Lemma forall_skipn {A} (P : A -> Prop) n l : Forall P l -> Forall P (skipn n l).
Proof. intros H. revert n. induction H; intros [|n]; cbn; auto. Qed.

(** The loop over the chunks succeeds exactly when every character is a digit. *)
Lemma dec_chunks_spec fuel : forall data, (List.length data <= fuel)%nat -> is_bytes data ->
  (forall ret, b32_dec_chunks (chunks_aux fuel 8 data) = Some ret ->
     exists vs k, Forall2 hex_digit data vs /\ is_bytes ret /\
       flat_map (bits_of 8) ret = flat_map (bits_of 5) vs ++ repeat false k)
  /\ (forall vs, Forall2 hex_digit data vs -> exists ret, b32_dec_chunks (chunks_aux fuel 8 data) = Some ret).
Proof.
  induction fuel as [|f IH]; intros data Hf Hb.
  - destruct data; [|cbn in Hf; lia]. cbn. split; [|eauto]. intros ret H. inversion H; subst.
    exists [], 0%nat. split; [constructor|split; [constructor|reflexivity]].
  - destruct data as [|c t].
    + cbn. split; [|eauto]. intros ret H. inversion H; subst. exists [], 0%nat. split; [constructor|split; [constructor|reflexivity]].
    + set (data := c :: t) in *. assert (Hne : data <> []) by discriminate.
      assert (HL : (List.length (skipn 8 data) <= f)%nat) by (rewrite skipn_length; unfold data in *; cbn [List.length] in *; lia).
      assert (Hc : chunks_aux (S f) 8 data = firstn 8 data :: chunks_aux f 8 (skipn 8 data)) by reflexivity.
      rewrite Hc. clearbody data. clear Hc. cbn [b32_dec_chunks].
      destruct (IH _ HL (forall_skipn _ 8 _ Hb)) as [IH1 IH2]. split.
      * intros ret H. destruct (b32_values (firstn 8 data)) as [v|] eqn:E1; [|discriminate].
        destruct (b32_dec_chunks (chunks_aux f 8 (skipn 8 data))) as [r|] eqn:E2; [|discriminate].
        assert (ret = b32_dec_chunk v ++ r) by congruence; subst ret; clear H. apply values_spec in E1; [|apply forall_firstn; auto].
        destruct (IH1 _ eq_refl) as (vs & k & H1 & H2 & H3).
        pose proof (Forall2_length _ _ _ E1) as L1. rewrite firstn_length in L1.
        pose proof (Forall2_length _ _ _ H1) as L2. rewrite skipn_length in L2.
        destruct (le_lt_dec 8 (List.length data)) as [L8|L8].
        -- exists (v ++ vs), k. split; [rewrite <- (firstn_skipn 8 data); apply Forall2_app; auto|].
           split; [apply Forall_app; split; auto; apply dec_chunk_bytes|]. 
           rewrite !flat_map_app, H3, dec_chunk_bits by (try lia; eapply digits_lt; eauto).
           replace (8 - List.length v)%nat with 0%nat by lia. cbn [repeat]. rewrite app_nil_r, app_assoc. reflexivity.
        -- assert (E : skipn 8 data = []) by (apply skipn_all2; lia). rewrite E in *. cbn in L2.
           inversion H1; subst vs. exists v, (5 * (8 - List.length v) + k)%nat.
           rewrite <- (firstn_skipn 8 data), E, app_nil_r. split; [auto|].
           split; [apply Forall_app; split; auto; apply dec_chunk_bytes|].
           rewrite !flat_map_app, H3, dec_chunk_bits by (try lia; eapply digits_lt; eauto).
           rewrite flat_map_app, zero_bits5, <- app_assoc. cbn [flat_map app]. rewrite repeat_app. reflexivity.
      * intros vs H.
        pose proof (forall2_firstn _ 8 _ _ H) as F1. pose proof (forall2_skipn _ 8 _ _ H) as F2.
        apply values_spec in F1; [|apply forall_firstn; auto]. destruct (IH2 _ F2) as [r Er]. rewrite F1, Er. eauto.
Qed.

Lemma drop_zero_existsb l : existsb (fun c => negb (c =? 0)) l = false <-> l = repeat 0 (List.length l).
Proof.
  induction l as [|c t IH]; cbn; [tauto|]. destruct (N.eqb_spec c 0) as [->|E]; cbn.
  - rewrite IH. split; [intros E; f_equal; exact E|intros E; inversion E as [E']; rewrite <- E'; exact E'].
  - split; [discriminate|intros G; inversion G; congruence].
Qed.
Lemma firstn_repeat {A} (x : A) n k : firstn n (repeat x k) = repeat x (min n k).
Proof. revert k. induction n; intros [|k]; cbn; auto. f_equal. auto. Qed.
Lemma skipn_repeat {A} (x : A) n k : skipn n (repeat x k) = repeat x (k - n).
Proof. revert k. induction n; intros [|k]; cbn; auto. Qed.
Lemma all_false_bytes l k : is_bytes l -> flat_map (bits_of 8) l = repeat false k -> l = repeat 0 (List.length l).
Proof.
  intros H E. apply flat_bits_inj; auto.
  - apply Forall_forall. intros x Hx. apply repeat_spec in Hx. subst. reflexivity.
  - rewrite zero_bits, E. f_equal. apply (f_equal (@List.length bool)) in E.
    rewrite flat_bits_len, repeat_length in E. change (N.to_nat 8) with 8%nat in E. lia.
Qed.

Theorem decode_spec s d : is_bytes s -> (b32_decode s = Some d <-> Base32Hex s d).
Proof.
  intros Hb. destruct (dec_chunks_spec (List.length s) s (le_n _) Hb) as [D1 D2].
  pose proof (N.mod_lt (len s) 8 ltac:(discriminate)) as Hm.
  pose proof (N.div_mod (len s) 8 ltac:(discriminate)) as Hdm.
  set (n := len s) in *.
  set (L := n * 5 / 8) in *.
  assert (HL : n * 5 = 8 * L + (n mod 8 * 5) mod 8 /\ L = 5 * (n / 8) + n mod 8 * 5 / 8).
  { pose proof (N.div_mod (n * 5) 8 ltac:(discriminate)) as G.
    rewrite N.mul_mod in G by discriminate. change (5 mod 8) with 5 in G. split; [exact G|].
    unfold L. rewrite Hdm at 1. replace ((8 * (n / 8) + n mod 8) * 5) with (n mod 8 * 5 + (n / 8 * 5) * 8) by lia.
    rewrite N.div_add by discriminate. lia. }
  destruct HL as [HL HL2].
  assert (HLe : 8 * L <= n * 5) by (apply N.mul_div_le; discriminate).
  assert (Hlen : n = N.of_nat (List.length s)) by reflexivity.
  unfold b32_decode, b32_decode_data. fold n. fold L. unfold chunks. split.
  - destruct ((n mod 8 =? 1) || (n mod 8 =? 3) || (n mod 8 =? 6)) eqn:Em; [discriminate|].
    rewrite !orb_false_iff, !N.eqb_neq in Em.
    destruct (b32_dec_chunks _) as [ret|] eqn:E; [|discriminate].
    destruct (existsb _ _) eqn:Ex; [discriminate|]. intros H; inversion H; subst d; clear H.
    apply drop_zero_existsb in Ex.
    destruct (D1 _ eq_refl) as (vs & k & H1 & H2 & H3).
    pose proof (Forall2_length _ _ _ H1) as Lv.
    assert (Hlr : (8 * List.length ret = 5 * List.length s + k)%nat).
    { apply (f_equal (@List.length bool)) in H3. rewrite app_length, !flat_bits_len, repeat_length in H3.
      change (N.to_nat 8) with 8%nat in H3. change (N.to_nat 5) with 5%nat in H3. lia. }
    exists vs, (N.to_nat ((n mod 8 * 5) mod 8)). split; [auto|]. split.
    { destruct Em as ((M1 & M3) & M6). clear - Hm M1 M3 M6. generalize dependent (n mod 8). intros m Hm M1 M3 M6.
      assert (m = 0 \/ m = 2 \/ m = 4 \/ m = 5 \/ m = 7) as [C|[C|[C|[C|C]]]] by lia;
        rewrite C; vm_compute; lia. }
    split; [apply forall_firstn; auto|]. clear HL2 Hdm Hm Em.
    generalize dependent ((n mod 8 * 5) mod 8). intros r HL. clearbody L.
    assert (Hr : ret = takeN L ret ++ repeat 0 (List.length (dropN L ret))).
    { rewrite <- Ex. unfold takeN, dropN. symmetry. apply firstn_skipn. }
    rewrite Hr, flat_map_app, zero_bits in H3.
    apply (f_equal (firstn (5 * List.length vs))) in H3.
    rewrite (firstn_app _ (flat_map (bits_of 5) vs)), flat_bits_len in H3. change (N.to_nat 5) with 5%nat in H3.
    rewrite Nat.sub_diag in H3. cbn [firstn] in H3. rewrite app_nil_r in H3.
    rewrite (firstn_all2 (flat_map (bits_of 5) vs)) in H3 by (rewrite flat_bits_len; change (N.to_nat 5) with 5%nat; lia).
    rewrite <- H3.
    assert (Lt : List.length (takeN L ret) = N.to_nat L).
    { unfold takeN. rewrite firstn_length. lia. }
    rewrite firstn_app, flat_bits_len, Lt. change (N.to_nat 8) with 8%nat.
    rewrite firstn_all2 by (rewrite flat_bits_len, Lt; change (N.to_nat 8) with 8%nat; lia).
    f_equal. rewrite firstn_repeat. f_equal.
    unfold dropN. rewrite skipn_length. lia.
  - intros (vs & pad & H1 & H2 & H3 & H4).
    pose proof (Forall2_length _ _ _ H1) as Lv.
    assert (Hl : (5 * List.length s = 8 * List.length d + pad)%nat).
    { apply (f_equal (@List.length bool)) in H4. rewrite app_length, !flat_bits_len, repeat_length in H4.
      change (N.to_nat 8) with 8%nat in H4. change (N.to_nat 5) with 5%nat in H4. lia. }
    assert (HLd : L = len d).
    { unfold L. symmetry. apply (N.div_unique _ 8 _ (N.of_nat pad)); unfold len; lia. }
    assert (Em : (n mod 8 =? 1) || (n mod 8 =? 3) || (n mod 8 =? 6) = false).
    { assert (Hp : (n mod 8 * 5) mod 8 < 5).
      { rewrite HLd in HL. unfold len in HL. lia. }
      rewrite !orb_false_iff, !N.eqb_neq. repeat split; intros C; rewrite C in Hp; vm_compute in Hp; discriminate. }
    rewrite Em. destruct (D2 _ H1) as [ret E]. rewrite E.
    destruct (D1 _ E) as (vs' & k & G1 & G2 & G3).
    assert (vs' = vs).
    { assert (F : forall s vs vs', Forall2 hex_digit s vs -> Forall2 hex_digit s vs' -> vs' = vs).
      { clear. intros s vs vs' H. revert vs'. induction H as [|c v s vs Hc Hs IH]; intros vs' H'; inversion H' as [|? v' ? r Hc' Hs']; subst; auto.
        f_equal; auto. unfold hex_digit in *. lia. }
      eauto. }
    subst vs'. rewrite H4, <- app_assoc, <- repeat_app in G3.
    assert (Hlr : (8 * List.length ret = 8 * List.length d + (pad + k))%nat).
    { apply (f_equal (@List.length bool)) in G3. rewrite app_length, !flat_bits_len, repeat_length in G3.
      change (N.to_nat 8) with 8%nat in G3. lia. }
    rewrite <- (firstn_skipn (List.length d) ret), flat_map_app in G3.
    apply app_inv_len in G3.
    2:{ unfold len. rewrite !flat_bits_len, firstn_length. do 2 f_equal. lia. }
    destruct G3 as [G5 G6]. apply flat_bits_inj in G5; [|apply forall_firstn; auto|auto].
    apply all_false_bytes in G6; [|apply forall_skipn; auto].
    unfold takeN, dropN. rewrite HLd, len_length.
    rewrite (proj2 (drop_zero_existsb _) G6), G5. reflexivity.
Qed.

(** ** The encoder (test-only code in the crate) *)
Definition b32_enc_values (chunk : bytes) : list N :=
  let b i := nth i chunk 0 in
  [ N.shiftr (N.land (b 0%nat) 248) 3;
    N.lor (N.shiftl (N.land (b 0%nat) 7) 2) (N.shiftr (N.land (b 1%nat) 192) 6);
    N.shiftr (N.land (b 1%nat) 62) 1;
    N.lor (N.shiftl (N.land (b 1%nat) 1) 4) (N.shiftr (N.land (b 2%nat) 240) 4);
    N.lor (N.shiftl (N.land (b 2%nat) 15) 1) (N.shiftr (b 3%nat) 7);
    N.shiftr (N.land (b 3%nat) 124) 2;
    N.lor (N.shiftl (N.land (b 3%nat) 3) 3) (N.shiftr (N.land (b 4%nat) 224) 5);
    N.land (b 4%nat) 31 ].
Lemma enc_chunk_values c : b32_enc_chunk c = map b32_char (b32_enc_values c).
Proof. reflexivity. Qed.

Definition fits5 (v : N) (l : list bool) : bool := (v <? 32) && bleqb (bits_of 5 v) l.
Lemma fits5_eq v l : fits5 v l = true -> v < 32 /\ bits_of 5 v = l.
Proof. intros H. apply andb_true_iff in H. destruct H as [H1 H2]. split; [now apply N.ltb_lt|now apply bleqb_eq]. Qed.

Lemma sweep2 (P : N -> N -> bool) : forallb (fun a => forallb (P a) (rangeN 256)) (rangeN 256) = true ->
  forall a b, a < 256 -> b < 256 -> P a b = true.
Proof.
  intros H a b Ha Hb. rewrite forallb_forall in H. specialize (H a (rangeN_in 256 a Ha)).
  rewrite forallb_forall in H. exact (H b (rangeN_in 256 b Hb)).
Qed.

Definition enc_v0 a := fits5 (N.shiftr (N.land a 248) 3) (firstn 5 (bits_of 8 a)).
Definition enc_v1 a b := fits5 (N.lor (N.shiftl (N.land a 7) 2) (N.shiftr (N.land b 192) 6)) (skipn 5 (bits_of 8 a) ++ firstn 2 (bits_of 8 b)).
Definition enc_v2 a := fits5 (N.shiftr (N.land a 62) 1) (firstn 5 (skipn 2 (bits_of 8 a))).
Definition enc_v3 a b := fits5 (N.lor (N.shiftl (N.land a 1) 4) (N.shiftr (N.land b 240) 4)) (skipn 7 (bits_of 8 a) ++ firstn 4 (bits_of 8 b)).
Definition enc_v4 a b := fits5 (N.lor (N.shiftl (N.land a 15) 1) (N.shiftr b 7)) (skipn 4 (bits_of 8 a) ++ firstn 1 (bits_of 8 b)).
Definition enc_v5 a := fits5 (N.shiftr (N.land a 124) 2) (firstn 5 (skipn 1 (bits_of 8 a))).
Definition enc_v6 a b := fits5 (N.lor (N.shiftl (N.land a 3) 3) (N.shiftr (N.land b 224) 5)) (skipn 6 (bits_of 8 a) ++ firstn 3 (bits_of 8 b)).
Definition enc_v7 a := fits5 (N.land a 31) (skipn 3 (bits_of 8 a)).
Lemma enc_v0_ok a : a < 256 -> enc_v0 a = true. Proof. apply (sweep1 enc_v0 256). vm_compute. reflexivity. Qed.
Lemma enc_v2_ok a : a < 256 -> enc_v2 a = true. Proof. apply (sweep1 enc_v2 256). vm_compute. reflexivity. Qed.
Lemma enc_v5_ok a : a < 256 -> enc_v5 a = true. Proof. apply (sweep1 enc_v5 256). vm_compute. reflexivity. Qed.
Lemma enc_v7_ok a : a < 256 -> enc_v7 a = true. Proof. apply (sweep1 enc_v7 256). vm_compute. reflexivity. Qed.
Lemma enc_v1_ok a b : a < 256 -> b < 256 -> enc_v1 a b = true. Proof. apply (sweep2 enc_v1). vm_compute. reflexivity. Qed.
Lemma enc_v3_ok a b : a < 256 -> b < 256 -> enc_v3 a b = true. Proof. apply (sweep2 enc_v3). vm_compute. reflexivity. Qed.
Lemma enc_v4_ok a b : a < 256 -> b < 256 -> enc_v4 a b = true. Proof. apply (sweep2 enc_v4). vm_compute. reflexivity. Qed.
Lemma enc_v6_ok a b : a < 256 -> b < 256 -> enc_v6 a b = true. Proof. apply (sweep2 enc_v6). vm_compute. reflexivity. Qed.

Lemma enc_values_bits5 a b c d e : a < 256 -> b < 256 -> c < 256 -> d < 256 -> e < 256 ->
  Forall (fun v => v < 32) (b32_enc_values [a; b; c; d; e]) /\
  flat_map (bits_of 5) (b32_enc_values [a; b; c; d; e]) = flat_map (bits_of 8) [a; b; c; d; e].
Proof.
  intros Ha Hb Hc Hd He.
  destruct (fits5_eq _ _ (enc_v0_ok a Ha)) as [L0 E0]. destruct (fits5_eq _ _ (enc_v1_ok a b Ha Hb)) as [L1 E1].
  destruct (fits5_eq _ _ (enc_v2_ok b Hb)) as [L2 E2]. destruct (fits5_eq _ _ (enc_v3_ok b c Hb Hc)) as [L3 E3].
  destruct (fits5_eq _ _ (enc_v4_ok c d Hc Hd)) as [L4 E4]. destruct (fits5_eq _ _ (enc_v5_ok d Hd)) as [L5 E5].
  destruct (fits5_eq _ _ (enc_v6_ok d e Hd He)) as [L6 E6]. destruct (fits5_eq _ _ (enc_v7_ok e He)) as [L7 E7].
  split.
  - unfold b32_enc_values. cbn [nth]. repeat (constructor; [assumption|]). constructor.
  - unfold b32_enc_values. cbn [nth flat_map]. rewrite E0, E1, E2, E3, E4, E5, E6, E7. reflexivity.
Qed.

Lemma enc_values_bits c : is_bytes c -> (List.length c <= 5)%nat ->
  Forall (fun v => v < 32) (b32_enc_values c) /\
  flat_map (bits_of 5) (b32_enc_values c) = flat_map (bits_of 8) c ++ repeat false (8 * (5 - List.length c)).
Proof.
  intros H HL.
  assert (E : b32_enc_values c = b32_enc_values (c ++ repeat 0 (5 - List.length c))).
  { unfold b32_enc_values.
    assert (Hn : forall i, nth i c 0 = nth i (c ++ repeat 0 (5 - List.length c)) 0).
    { intros i. destruct (lt_dec i (List.length c)).
      - rewrite app_nth1 by auto. reflexivity.
      - rewrite app_nth2, nth_overflow by lia. symmetry. apply nth_repeat. }
    rewrite <- !Hn. reflexivity. }
  rewrite E, <- zero_bits, <- flat_map_app. set (ws := c ++ repeat 0 (5 - List.length c)).
  assert (Hw : is_bytes ws).
  { apply Forall_app. split; auto. apply Forall_forall. intros x Hx. apply repeat_spec in Hx. subst. reflexivity. }
  assert (Hl : List.length ws = 5%nat) by (unfold ws; rewrite app_length, repeat_length; lia).
  clearbody ws. clear -Hw Hl.
  destruct ws as [|v0 [|v1 [|v2 [|v3 [|v4 [|]]]]]]; try discriminate. unfold is_bytes in Hw.
  repeat match goal with H : Forall _ (_ :: _) |- _ => apply Forall_cons_iff in H; destruct H end.
  apply enc_values_bits5; auto.
Qed.

Lemma enc_chunks_values fuel : forall data, (List.length data <= fuel)%nat -> is_bytes data ->
  exists vs k, flat_map b32_enc_chunk (chunks_aux fuel 5 data) = map b32_char vs /\
    Forall (fun v => v < 32) vs /\
    flat_map (bits_of 5) vs = flat_map (bits_of 8) data ++ repeat false k.
Proof.
  induction fuel as [|f IH]; intros data Hf Hb.
  - destruct data; [|cbn in Hf; lia]. exists [], 0%nat. split; [reflexivity|split; [constructor|reflexivity]].
  - destruct data as [|c t].
    + exists [], 0%nat. split; [reflexivity|split; [constructor|reflexivity]].
    + set (data := c :: t) in *.
      assert (HL : (List.length (skipn 5 data) <= f)%nat) by (rewrite skipn_length; unfold data in *; cbn [List.length] in *; lia).
      assert (Hc : chunks_aux (S f) 5 data = firstn 5 data :: chunks_aux f 5 (skipn 5 data)) by reflexivity.
      rewrite Hc. clearbody data. clear Hc. cbn [flat_map]. rewrite enc_chunk_values.
      destruct (IH _ HL (forall_skipn _ 5 _ Hb)) as (vs & k & H1 & H2 & H3).
      destruct (enc_values_bits (firstn 5 data) (forall_firstn _ 5 _ Hb) ltac:(rewrite firstn_length; lia)) as [G1 G2].
      destruct (le_lt_dec 5 (List.length data)) as [L5|L5].
      * exists (b32_enc_values (firstn 5 data) ++ vs), k. rewrite H1, map_app. split; [reflexivity|].
        split; [apply Forall_app; auto|]. rewrite flat_map_app, G2, H3, firstn_length.
        replace (5 - _)%nat with 0%nat by lia. cbn [Nat.mul repeat]. rewrite app_nil_r, app_assoc, <- flat_map_app, firstn_skipn. reflexivity.
      * assert (E : skipn 5 data = []) by (apply skipn_all2; lia). rewrite E.
        exists (b32_enc_values (firstn 5 data)), (8 * (5 - List.length (firstn 5 data)))%nat.
        assert (Ed : firstn 5 data = data) by (apply firstn_all2; lia). rewrite Ed in *. split; [|auto].
        destruct f; cbn [chunks_aux flat_map]; rewrite app_nil_r; reflexivity.
Qed.

Lemma flat_bits_firstn w m : forall vs, flat_map (bits_of w) (firstn m vs) = firstn (N.to_nat w * m) (flat_map (bits_of w) vs).
Proof.
  induction m as [|m IH]; intros vs; [rewrite Nat.mul_0_r; reflexivity|].
  destruct vs as [|v vs]; [cbn; now rewrite firstn_nil|]. cbn [firstn flat_map].
  rewrite firstn_app, bits_len, (firstn_all2 (bits_of w v)) by (rewrite bits_len; lia). rewrite IH. f_equal. f_equal. lia.
Qed.

Definition char_digit_ok v := match digit_of (b32_char v) with Some d => d =? v | None => false end.
Lemma char_digit v : v < 32 -> hex_digit (b32_char v) v.
Proof.
  intros H. assert (G : char_digit_ok v = true) by (revert v H; apply (sweep1 char_digit_ok 32); vm_compute; reflexivity).
  unfold char_digit_ok, digit_of in G. unfold hex_digit.
  destruct ((48 <=? b32_char v) && (b32_char v <=? 57)) eqn:E1; [|destruct ((65 <=? b32_char v) && (b32_char v <=? 86)) eqn:E2; [|destruct ((97 <=? b32_char v) && (b32_char v <=? 118)) eqn:E3; [|discriminate]]];
    rewrite ?andb_true_iff, ?N.leb_le in *; apply N.eqb_eq in G; lia.
Qed.

Lemma encode_spec d : is_bytes d -> Base32Hex (b32_encode d) d.
Proof.
  intros Hb. destruct (enc_chunks_values (List.length d) d (le_n _) Hb) as (vs & k & H1 & H2 & H3).
  unfold b32_encode, chunks. rewrite H1.
  set (m := N.to_nat ((len d * 8 + 4) / 5)).
  assert (Hm : (8 * List.length d <= 5 * m /\ 5 * m < 8 * List.length d + 5)%nat).
  { unfold m, len. pose proof (N.div_mod (N.of_nat (List.length d) * 8 + 4) 5 ltac:(discriminate)) as G1.
    pose proof (N.mod_lt (N.of_nat (List.length d) * 8 + 4) 5 ltac:(discriminate)) as G2.
    generalize dependent ((N.of_nat (List.length d) * 8 + 4) mod 5).
    generalize ((N.of_nat (List.length d) * 8 + 4) / 5). intros q r G1 G2. lia. }
  assert (Hk : (5 * List.length vs = 8 * List.length d + k)%nat).
  { apply (f_equal (@List.length bool)) in H3. rewrite app_length, !flat_bits_len, repeat_length in H3.
    change (N.to_nat 8) with 8%nat in H3. change (N.to_nat 5) with 5%nat in H3. lia. }
  assert (Hmv : (5 * m - 8 * List.length d <= k)%nat) by lia.
  exists (firstn m vs), (5 * m - 8 * List.length d)%nat. split; [|split; [lia|split; [auto|]]].
  - unfold takeN. fold m. rewrite firstn_map. apply (forall_firstn _ m) in H2. clear - H2.
    induction H2 as [|v l Hv Hl IH]; [constructor|]. constructor; [apply char_digit; exact Hv|exact IH].
  - rewrite flat_bits_firstn, H3. change (N.to_nat 5) with 5%nat. rewrite firstn_app, flat_bits_len.
    change (N.to_nat 8) with 8%nat. rewrite firstn_all2 by (rewrite flat_bits_len; change (N.to_nat 8) with 8%nat; lia).
    rewrite firstn_repeat. f_equal. f_equal. lia.
Qed.
Lemma decode_encode d : is_bytes d -> b32_decode (b32_encode d) = Some d.
Proof.
  intros H. apply decode_spec; [|apply encode_spec; auto].
  destruct (encode_spec d H) as (vs & pad & F & _). clear - F. induction F as [|c v s vs Hc Hs IH]; constructor; auto.
  unfold hex_digit, is_u8 in *. lia.
Qed.
(** The text determines the data, and the data determines the text up to case. *)
Lemma base32_case s1 s2 d : is_bytes s1 -> is_bytes s2 -> b32_decode s1 = Some d -> b32_decode s2 = Some d -> uppercase s1 = uppercase s2.
Proof.
  intros B1 B2 H1 H2. apply decode_spec in H1; auto. apply decode_spec in H2; auto.
  destruct H1 as (v1 & p1 & F1 & P1 & _ & E1). destruct H2 as (v2 & p2 & F2 & P2 & _ & E2).
  assert (EL : v1 = v2).
  { assert (p1 = p2 /\ List.length v1 = List.length v2) as [-> EL].
    { apply (f_equal (@List.length bool)) in E1. apply (f_equal (@List.length bool)) in E2.
      rewrite app_length, !flat_bits_len, repeat_length in E1, E2.
      change (N.to_nat 8) with 8%nat in *. change (N.to_nat 5) with 5%nat in *. lia. }
    rewrite <- E2 in E1. apply digits_lt in F1. apply digits_lt in F2. clear - E1 F1 F2 EL.
    revert v2 EL E1 F2. induction F1 as [|v v1 Hv Hs IH]; intros [|w v2] EL E F2; try discriminate; auto.
    cbn [flat_map] in E. apply app_inv_len in E; [|now unfold len; rewrite !bits_len].
    destruct E as [E1 E2]. inversion F2; subst. f_equal; [|apply IH; auto].
    assert (H : forall a, a < 32 -> fold_left (fun s (x : bool) => 2 * s + (if x then 1 else 0)) (bits_of 5 a) 0 = a).
    { intros x Hx. apply N.eqb_eq. revert x Hx. apply (sweep1 (fun x => _ =? _) 32). vm_compute. reflexivity. }
    rewrite <- (H v), <- (H w), E1 by auto. reflexivity. }
  subst v2. clear - F1 F2. revert s2 F2. induction F1 as [|c v s vs Hc Hs IH]; intros s2 F2; inversion F2 as [|c' ? s' ? Hc' Hs']; subst; auto.
  cbn [uppercase map]. f_equal; [|apply IH; auto]. clear - Hc Hc'. unfold hex_digit, ascii_upper in *.
  destruct ((97 <=? c) && (c <=? 122)) eqn:E1; destruct ((97 <=? c') && (c' <=? 122)) eqn:E2;
    rewrite ?andb_true_iff, ?andb_false_iff, ?N.leb_le, ?N.leb_gt in *; lia.
Qed.

Lemma rsa_short_false : ~ (forall pk md ex, is_bytes pk -> md <> [] ->
  (bytes_to_rsa_pk pk = Some (md, ex) <-> RsaLayout pk md ex)).
Proof.
  intros H. assert (G : bytes_to_rsa_pk [1; 3; 200] = Some ([200], [3])).
  { apply H; [repeat constructor|discriminate|]. apply (RL_short [3] [200]). vm_compute. split; discriminate. }
  discriminate.
Qed.
Lemma rsa_no_loss pk md ex : is_bytes pk -> bytes_to_rsa_pk pk = Some (md, ex) ->
  md <> [] /\ exists hdr, pk = hdr ++ ex ++ md /\ (hdr = [len ex] \/ hdr = [0; len ex / 256; len ex mod 256]).
Proof.
  intros Hb H. apply rsa_spec in H; auto. destruct H as (H & Hn & _). split; auto.
  destruct H as [ex md He|ex md He].
  - exists [len ex]. auto.
  - exists [0; len ex / 256; len ex mod 256]. auto.
Qed.
