(** How often the octets of a request are looked at. *)
From Verif Require Import Base BaseP HttpM HttpSpec ReadM.
From Coq Require Import Lia PeanoNat.
Local Open Scope N_scope.

Lemma crlf_cons a b t : c_has_crlf (a :: b :: t) = if (a =? 13) && (b =? 10) then (1, true) else (1 + fst (c_has_crlf (b :: t)), snd (c_has_crlf (b :: t))).
Proof. change (c_has_crlf (a :: b :: t)) with (if (a =? 13) && (b =? 10) then (1, true) else let '(n, found) := c_has_crlf (b :: t) in (1 + n, found)). destruct (c_has_crlf (b :: t)). reflexivity. Qed.
Lemma read_cons x d t buf : c_read_req (SData (x :: d) :: t) buf = if len buf =? 4096 then (0, RTooLarge) else
  let buf' := buf ++ takeN (4096 - len buf) (x :: d) in let '(n, found) := c_has_crlf buf' in
  if found then (n, RRequest buf') else if len (x :: d) <=? 4096 - len buf then (n + fst (c_read_req t buf'), snd (c_read_req t buf')) else (n, RTooLarge).
Proof. cbn [c_read_req]. cbn zeta. destruct (len buf =? 4096); [reflexivity |]. destruct (c_has_crlf _) as [n []]; [reflexivity |]. destruct (_ <=? _); [| reflexivity]. destruct (c_read_req t _). reflexivity. Qed.
Lemma crlf_same l : snd (c_has_crlf l) = has_crlf l.
Proof. induction l as [| a [| b t] IH]; [reflexivity | reflexivity |]. rewrite crlf_cons. change (has_crlf (a :: b :: t)) with (((a =? 13) && (b =? 10)) || has_crlf (b :: t)). destruct ((a =? 13) && (b =? 10)); [reflexivity |]. cbn [snd orb]. exact IH. Qed.
Lemma read_same evs : forall buf, snd (c_read_req evs buf) = read_req evs buf.
Proof.
  induction evs as [| ev evs IH]; intros buf; [cbn [c_read_req read_req]; destruct (len buf =? 4096); reflexivity |].
  destruct ev as [[| x d] | |]; [| rewrite read_cons | |]; cbn [c_read_req read_req]; destruct (len buf =? 4096); try reflexivity; [apply IH | | apply IH].
  cbn zeta. set (buf' := buf ++ takeN (4096 - len buf) (x :: d)). rewrite <- crlf_same. destruct (c_has_crlf buf') as [n f]. cbn [snd]. destruct f; [reflexivity |]. destruct (len (x :: d) <=? 4096 - len buf); [apply IH | reflexivity].
Qed.
Lemma crlf_cost l : fst (c_has_crlf l) <= len l - 1.
Proof.
  induction l as [| a [| b t] IH]; [cbn; lia | cbn; lia |]. rewrite crlf_cons. rewrite !len_cons in *. destruct ((a =? 13) && (b =? 10)); cbn [fst]; lia.
Qed.
Definition pairs (n : N) : N := n * (n - 1).
Lemma pairs_mono a b : a <= b -> pairs a <= pairs b.
Proof. unfold pairs. intros H. apply N.mul_le_mono; lia. Qed.
Lemma pairs_step p p' : p < p' -> 2 * (p' - 1) + pairs p <= pairs p'.
Proof. intros H. assert (X : pairs p <= pairs (p' - 1)) by (apply pairs_mono; lia). unfold pairs in *. destruct (N.eq_dec p' 0); [lia |]. destruct (N.eq_dec p' 1); [subst; cbn in *; lia |]. nia. Qed.
Lemma taken_len (buf d : list N) : len buf < 4096 -> d <> [] -> len buf < len (buf ++ takeN (4096 - len buf) d) <= N.min 4096 (len buf + len d).
Proof.
  intros L NE. rewrite len_app. assert (X : len (takeN (4096 - len buf) d) = N.min (4096 - len buf) (len d)) by (unfold takeN, len; rewrite firstn_length; lia).
  assert (Y : 1 <= len d) by (destruct d; [congruence | rewrite len_cons; lia]). lia.
Qed.
Lemma read_cost evs : forall buf, len buf <= 4096 -> 2 * fst (c_read_req evs buf) + pairs (len buf) <= pairs (N.min 4096 (len buf + len (delivered evs))).
Proof.
  induction evs as [| ev evs IH]; intros buf L; [cbn [c_read_req] |].
  - assert (X : pairs (len buf) <= pairs (N.min 4096 (len buf + len (delivered [])))) by (apply pairs_mono; lia). destruct (len buf =? 4096); cbn [fst]; lia.
  - assert (X : pairs (len buf) <= pairs (N.min 4096 (len buf + len (delivered (ev :: evs))))) by (apply pairs_mono; lia).
    destruct ev as [[| x d] | |]; [| rewrite read_cons | |]; cbn [c_read_req]; destruct (N.eqb_spec (len buf) 4096) as [| NE]; try (cbn [fst]; lia); [exact (IH buf L) | | exact (IH buf L)]. clear X.
    cbn zeta. set (s := x :: d). assert (NS : s <> []) by discriminate. pose proof (taken_len buf s ltac:(lia) NS) as T. set (buf' := buf ++ takeN (4096 - len buf) s) in *.
    pose proof (crlf_cost buf') as C. destruct (c_has_crlf buf') as [n f]. cbn [fst] in C. pose proof (pairs_step _ _ (proj1 T)) as S.
    assert (D : len (delivered (SData s :: evs)) = len s + len (delivered evs)) by (cbn [delivered]; rewrite len_app; reflexivity). rewrite D.
    assert (M : pairs (len buf') <= pairs (N.min 4096 (len buf + (len s + len (delivered evs))))) by (apply pairs_mono; lia).
    destruct f; [cbn [fst]; lia |]. destruct (N.leb_spec (len s) (4096 - len buf)) as [G | G]; cbn [fst]; [| lia].
    specialize (IH buf' ltac:(lia)). assert (M2 : pairs (N.min 4096 (len buf' + len (delivered evs))) <= pairs (N.min 4096 (len buf + (len s + len (delivered evs))))) by (apply pairs_mono; lia). lia.
Qed.
Lemma read_bound evs : fst (c_read_req evs []) <= 8386560 /\ 2 * fst (c_read_req evs []) <= len (delivered evs) * (len (delivered evs) - 1).
Proof.
  pose proof (read_cost evs [] ltac:(cbn; lia)) as H. change (@len N []) with 0 in H. change (pairs 0) with 0 in H. rewrite !N.add_0_r, N.add_0_l in H. split.
  - pose proof (pairs_mono (N.min 4096 (len (delivered evs))) 4096 ltac:(lia)) as M. change (pairs 4096) with 16773120 in M. lia.
  - pose proof (pairs_mono (N.min 4096 (len (delivered evs))) (len (delivered evs)) ltac:(lia)) as M. change (len (delivered evs) * (len (delivered evs) - 1)) with (pairs (len (delivered evs))). lia.
Qed.
(** In one piece. *)
Lemma one_piece d t : fst (c_read_req [SData d] t) <= len t + len d.
Proof.
  destruct d as [| x d]; [cbn [c_read_req]; destruct (len t =? 4096); cbn [fst]; lia |]. rewrite read_cons. destruct (len t =? 4096); [cbn [fst]; lia |]. cbn zeta. set (s := x :: d).
  pose proof (crlf_cost (t ++ takeN (4096 - len t) s)) as C. assert (X : len (t ++ takeN (4096 - len t) s) <= len t + len s) by (rewrite len_app; unfold takeN, len; rewrite firstn_length; lia).
  destruct (c_has_crlf _) as [n f]. cbn [fst] in C. destruct f; [cbn [fst]; lia |]. destruct (len s <=? 4096 - len t); cbn [fst c_read_req]; [destruct (_ =? 4096); cbn [fst]; lia | lia].
Qed.

(** One octet at a time. *)
Lemma crlf_none k : fst (c_has_crlf (repeat 65 k)) = N.of_nat k - 1 /\ snd (c_has_crlf (repeat 65 k)) = false.
Proof. induction k as [| [| k] IH]; [split; reflexivity | split; reflexivity |]. change (repeat 65 (S (S k))) with (65 :: 65 :: repeat 65 k). rewrite crlf_cons. change ((65 =? 13) && (65 =? 10)) with false. cbn iota. cbn [fst snd]. change (65 :: repeat 65 k) with (repeat 65 (S k)). destruct IH as [I1 I2]. split; [rewrite I1; lia | exact I2]. Qed.
Lemma slow k : forall j, (j + k <= 4096)%nat -> 2 * fst (c_read_req (repeat (SData [65]) k) (repeat 65 j)) + pairs (N.of_nat j) = pairs (N.of_nat (j + k)).
Proof.
  assert (LR : forall i, len (repeat 65 i) = N.of_nat i) by (intros i; unfold len; rewrite repeat_length; reflexivity).
  induction k as [| k IH]; intros j H.
  - rewrite Nat.add_0_r. cbn [repeat c_read_req]. destruct (_ =? _); cbn [fst]; lia.
  - change (repeat (SData [65]) (S k)) with (SData [65] :: repeat (SData [65]) k). rewrite read_cons, LR. destruct (N.eqb_spec (N.of_nat j) 4096) as [E | E]; [lia |]. cbn zeta. replace (takeN (4096 - N.of_nat j) [65]) with [65] by (unfold takeN; destruct (N.to_nat (4096 - N.of_nat j)) eqn:X; [lia | destruct n; reflexivity]).
    replace (repeat 65 j ++ [65]) with (repeat 65 (S j)) by (exact (repeat_cons j 65)). destruct (crlf_none (S j)) as [C1 C2]. destruct (c_has_crlf (repeat 65 (S j))) as [n f]. cbn [fst snd] in C1, C2. subst n f.
    replace (len [65] <=? 4096 - N.of_nat j) with true by (symmetry; apply N.leb_le; change (len [65]) with 1; lia). cbn [fst]. specialize (IH (S j) ltac:(lia)). replace (S j + k)%nat with (j + S k)%nat in IH by lia. rewrite <- IH.
    unfold pairs. replace (N.of_nat (S j)) with (N.of_nat j + 1) by lia. set (x := N.of_nat j). destruct (N.eq_dec x 0) as [-> | NZ]; [cbn; lia |]. nia.
Qed.
Lemma slow_cost k : (k <= 4096)%nat -> 2 * fst (c_read_req (repeat (SData [65]) k) []) = N.of_nat k * (N.of_nat k - 1).
Proof. intros H. pose proof (slow k 0 ltac:(lia)) as S. change (repeat 65 0) with (@nil N) in S. change (pairs (N.of_nat 0)) with 0 in S. rewrite N.add_0_r in S. exact S. Qed.
Lemma slow_reached : exists evs, fst (c_read_req evs []) = 8386560.
Proof. exists (repeat (SData [65]) (N.to_nat 4096)). pose proof (slow_cost (N.to_nat 4096) ltac:(lia)) as S. rewrite N2Nat.id in S. change (4096 * (4096 - 1)) with 16773120 in S. lia. Qed.
Lemma slow_linear : ~ (forall evs, fst (c_read_req evs []) <= 2047 * len (delivered evs)).
Proof.
  intros H. specialize (H (repeat (SData [65]) (N.to_nat 4096))). pose proof (slow_cost (N.to_nat 4096) ltac:(lia)) as S. rewrite N2Nat.id in S. change (4096 * (4096 - 1)) with 16773120 in S.
  assert (L : forall k, len (delivered (repeat (SData [65]) k)) = N.of_nat k). { induction k as [| k IH]; [reflexivity |]. cbn [repeat delivered app]. rewrite len_cons, IH. lia. } rewrite L, N2Nat.id in H. lia.
Qed.
