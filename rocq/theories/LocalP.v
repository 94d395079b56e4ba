(** Proofs for Prop_Local. *)
From Verif Require Import Base BaseP NameM WireM WireP LocalSpec.
From Coq Require Import Lia.
Local Open Scope N_scope.

(** [b], read from [inp'], is what [a] is, read from [inp] of which [k] octets are used. *)
Definition same_result {A} (k : nat) (inp inp' : bytes) (a b : outcome unit (A * bytes)) : Prop :=
  match a with Ok (n, rest) => rest = skipn k inp /\ b = Ok (n, skipn k inp') | Err _ => b = Err tt | Panic => b = Panic | Loop => b = Loop end.
Definition prefix_same (k : nat) (inp inp' : bytes) : Prop := List.length inp = List.length inp' /\ firstn k inp = firstn k inp'.

Lemma firstn_S_inv {A} k (x : A) l l' : firstn (S k) (x :: l) = firstn (S k) l' -> exists m, l' = x :: m /\ firstn k l = firstn k m.
Proof. destruct l' as [| y m]; cbn; intros E; [discriminate |]. injection E as -> E. eauto. Qed.
Lemma firstn_app_inv {A} a b (l l' : list A) : (a <= List.length l)%nat -> firstn (a + b) l = firstn (a + b) l' -> firstn a l = firstn a l' /\ firstn b (skipn a l) = firstn b (skipn a l').
Proof.
  revert l l'. induction a; intros l l' H E; [cbn in *; auto |]. destruct l as [| x l]; [cbn in H; lia |]. cbn [Nat.add] in E.
  destruct (firstn_S_inv _ _ _ _ E) as (m & -> & E'). cbn [List.length] in H. destruct (IHa l m ltac:(lia) E') as [P Q]. cbn. rewrite P. auto.
Qed.
Lemma agree_prefix wire wire' offs k ps : AgreeAt (seq offs k ++ ps) wire wire' -> prefix_same k (skipn offs wire) (skipn offs wire').
Proof.
  intros [L H]. split; [rewrite !skipn_length, L; reflexivity |].
  assert (K : forall i, In i (seq offs k) -> nth_error wire i = nth_error wire' i) by (intros; apply H, in_or_app; auto). clear H.
  revert k wire wire' K L. induction offs as [| o IH]; intros k wire wire' K L.
  - cbn [skipn]. revert wire wire' K L. induction k; intros wire wire' K L; [reflexivity |].
    destruct wire as [| x w], wire' as [| y w']; try reflexivity; try discriminate L.
    pose proof (K O ltac:(cbn; auto)) as E0. cbn in E0. injection E0 as <-. cbn [firstn]. f_equal.
    apply IHk; [| cbn in L; lia]. intros i I. specialize (K (S i)). cbn [nth_error] in K. apply K. apply in_seq in I. apply in_seq. lia.
  - destruct wire as [| x w], wire' as [| y w']; try discriminate L; [reflexivity |].
    cbn [skipn]. apply IH; [| cbn in L; lia]. intros i I. specialize (K (S i)). cbn [nth_error] in K. apply K. apply in_seq in I. apply in_seq. lia.
Qed.

Definition jump_local (c : nat) (J : bytes -> option (bytes -> bytes -> outcome unit bytes)) : Prop :=
  (forall w, J w = None) \/
  exists R c', c = S (S c') /\ (forall w, J w = Some (R w)) /\
    forall w i nm, (List.length nm <= 255)%nat -> exists k ps, (k + List.length ps <= c' + (256 - List.length nm))%nat /\
      forall w' i', prefix_same k i i' -> AgreeAt ps w w' -> R w' i' nm = R w i nm.

Lemma loop_local c J : jump_local c J -> forall fuel w inp nm, (List.length nm <= 255)%nat ->
  exists k ps, (k + List.length ps <= c + (256 - List.length nm))%nat /\
    forall w' inp', prefix_same k inp inp' -> AgreeAt ps w w' -> same_result k inp inp' (labels_loop (J w) w fuel inp nm) (labels_loop (J w') w' fuel inp' nm).
Proof.
  intros HJ. induction fuel as [| f IH]; intros w inp nm Hn.
  { exists O, []. split; [cbn [List.length]; lia |]. intros. reflexivity. }
  destruct inp as [| l inp1].
  { exists O, []. split; [cbn [List.length]; lia |]. intros w' inp' [L _] _. destruct inp'; [reflexivity | discriminate L]. }
  assert (LBL : exists k ps, (S k + List.length ps <= c + (256 - List.length nm))%nat /\
    forall w' inp1', prefix_same (S k) (l :: inp1) (l :: inp1') -> AgreeAt ps w w' ->
    same_result (S k) (l :: inp1) (l :: inp1')
      (if len inp1 <=? l then Err tt else if negb (utf8_ok (takeN l inp1)) then Err tt
       else if 255 <? len (nm ++ takeN l inp1 ++ [dot]) then Err tt else labels_loop (J w) w f (dropN l inp1) (nm ++ takeN l inp1 ++ [dot]))
      (if len inp1' <=? l then Err tt else if negb (utf8_ok (takeN l inp1')) then Err tt
       else if 255 <? len (nm ++ takeN l inp1' ++ [dot]) then Err tt else labels_loop (J w') w' f (dropN l inp1') (nm ++ takeN l inp1' ++ [dot]))).
  { destruct (N.leb_spec (len inp1) l) as [Hl | Hl].
    { exists O, []. split; [cbn [List.length]; lia |]. intros w' inp1' [L _] _. cbn [List.length] in L. unfold same_result.
      replace (len inp1') with (len inp1) by (unfold len; lia). apply N.leb_le in Hl. rewrite Hl. reflexivity. }
    assert (T : List.length (takeN l inp1) = N.to_nat l) by (unfold takeN, len in *; rewrite firstn_length; lia).
    assert (LN : forall x, List.length x = List.length inp1 -> List.length (nm ++ takeN l x ++ [dot]) = (List.length nm + S (N.to_nat l))%nat).
    { intros x X. rewrite !app_length. unfold takeN. rewrite firstn_length, X. unfold len in Hl. cbn [List.length]. lia. }
    destruct (N.ltb_spec 255 (len (nm ++ takeN l inp1 ++ [dot]))) as [Hb | Hb].
    { exists O, []. split; [cbn [List.length]; lia |]. intros w' inp1' [L _] _. cbn [List.length] in L.
      assert (E : (if negb (utf8_ok (takeN l inp1')) then Err tt else if 255 <? len (nm ++ takeN l inp1' ++ [dot]) then Err tt
        else labels_loop (J w') w' f (dropN l inp1') (nm ++ takeN l inp1' ++ [dot])) = Err tt).
      { replace (len (nm ++ takeN l inp1' ++ [dot])) with (len (nm ++ takeN l inp1 ++ [dot])) by (unfold len; rewrite !LN by lia; reflexivity).
        apply N.ltb_lt in Hb. rewrite Hb. destruct (negb _); reflexivity. }
      rewrite E. destruct (len inp1' <=? l), (negb (utf8_ok (takeN l inp1))); reflexivity. }
    assert (Hb' : (List.length (nm ++ takeN l inp1 ++ [dot]) <= 255)%nat) by (unfold len in Hb; lia).
    destruct (IH w (dropN l inp1) (nm ++ takeN l inp1 ++ [dot]) Hb') as (k & ps & B & K). rewrite LN in B, Hb' by reflexivity.
    exists (N.to_nat l + k)%nat, ps. split; [lia |]. intros w' inp1' [L E] A. cbn [List.length] in L. cbn [firstn] in E. injection E as E.
    assert (X : len inp1' <=? l = false) by (apply N.leb_gt; unfold len in *; lia). rewrite X.
    apply firstn_app_inv in E as [E1 E2]; [| unfold len in Hl; lia]. change (takeN l inp1 = takeN l inp1') in E1. rewrite <- E1.
    destruct (negb _); [reflexivity |]. apply N.ltb_ge in Hb. assert (Y : 255 <? len (nm ++ takeN l inp1 ++ [dot]) = false) by (apply N.ltb_ge; apply N.ltb_ge in Hb; lia). rewrite Y.
    assert (Z : prefix_same k (dropN l inp1) (dropN l inp1')) by (split; [unfold dropN; rewrite !skipn_length; lia | exact E2]).
    specialize (K w' (dropN l inp1') Z A). unfold same_result in *.
    destruct (labels_loop (J w) w f (dropN l inp1) _) as [[n rest] | | |]; try assumption. destruct K as [K1 K2].
    assert (SK : forall x : bytes, skipn k (dropN l x) = skipn (S (N.to_nat l + k)) (l :: x)) by (intros x; unfold dropN; rewrite skipn_skipn'; reflexivity).
    rewrite SK in K1. rewrite SK in K2. split; assumption. }
  destruct (N.eqb_spec l 0) as [E0 | E0].
  { exists 1%nat, []. split; [cbn [List.length]; lia |]. intros w' inp' [L E] _. symmetry in E. destruct inp' as [| l' inp1']; [discriminate |]. injection E as E. subst l' l. cbn. split; reflexivity. }
  assert (HD : forall k inp', prefix_same (S k) (l :: inp1) inp' -> exists m, inp' = l :: m /\ prefix_same k inp1 m).
  { intros k inp' [L E]. destruct (firstn_S_inv _ _ _ _ E) as (m & -> & E'). exists m. split; [reflexivity |]. split; [cbn in L; lia | exact E']. }
  destruct HJ as [HN | (R & c' & -> & HR & HL)].
  { destruct LBL as (k & ps & B & K). exists (S k), ps. split; [exact B |]. intros w' inp' P A. destruct (HD k inp' P) as (m & -> & _).
    specialize (K w' m P A). cbn [labels_loop]. apply N.eqb_neq in E0. rewrite E0. rewrite !HN in *. exact K. }
  destruct (N.leb_spec 192 l) as [Hp | Hp].
  2:{ destruct LBL as (k & ps & B & K). exists (S k), ps. split; [exact B |]. intros w' inp' P A. destruct (HD k inp' P) as (m & -> & _).
    specialize (K w' m P A). cbn [labels_loop]. apply N.eqb_neq in E0. rewrite E0. apply N.leb_gt in Hp. rewrite !HR, Hp in *. exact K. }
  clear LBL. destruct inp1 as [| lo inp2].
  { exists 1%nat, []. split; [cbn [List.length]; lia |]. intros w' inp' P A. destruct (HD O inp' P) as (m & -> & [L _]). destruct m; [| discriminate L].
    cbn [labels_loop]. apply N.eqb_neq in E0. apply N.leb_le in Hp. rewrite E0, !HR, Hp. reflexivity. }
  destruct (N.leb_spec (len w) ((l - 192) * 256 + lo)) as [Ho | Ho].
  { exists 2%nat, []. split; [cbn [List.length]; lia |]. intros w' inp' P [L _]. destruct (HD 1%nat inp' P) as (m & -> & [L' E']). symmetry in E'. destruct m as [| x m]; [discriminate |].
    injection E' as ->. cbn [labels_loop]. apply N.eqb_neq in E0. apply N.leb_le in Hp. rewrite E0, !HR, Hp. cbn [read_u8 obind].
    replace (len w') with (len w) by (unfold len; lia). apply N.leb_le in Ho. rewrite Ho. reflexivity. }
  destruct (HL w (dropN ((l - 192) * 256 + lo) w) nm Hn) as (k & ps & B & K).
  exists 2%nat, (seq (N.to_nat ((l - 192) * 256 + lo)) k ++ ps). split; [rewrite app_length, seq_length; lia |].
  intros w' inp' P A. destruct (HD 1%nat inp' P) as (m & -> & [L' E']). symmetry in E'. destruct m as [| x m]; [discriminate |].
  injection E' as ->. cbn [labels_loop]. apply N.eqb_neq in E0. apply N.leb_le in Hp. rewrite E0, !HR, Hp. cbn [read_u8 obind].
  replace (len w') with (len w) by (destruct A as [A _]; unfold len; lia). apply N.leb_gt in Ho. rewrite Ho.
  rewrite (K w' (dropN ((l - 192) * 256 + lo) w')).
  - destruct (R w (dropN _ w) nm) as [| [] | |]; cbn; auto.
  - apply agree_prefix with ps. exact A.
  - destruct A as [A1 A2]. split; [exact A1 |]. intros i I. apply A2, in_or_app. auto.
Qed.

Lemma do_read_local limit : forall w inp nm, (List.length nm <= 255)%nat ->
  exists k ps, (k + List.length ps <= 2 * limit + (256 - List.length nm))%nat /\
    forall w' inp', prefix_same k inp inp' -> AgreeAt ps w w' -> same_result k inp inp' (do_read_wire_packet_labels limit w inp nm) (do_read_wire_packet_labels limit w' inp' nm).
Proof.
  induction limit as [| l IH]; intros w inp nm Hn.
  - destruct (loop_local O (fun _ => None) (or_introl (fun _ => eq_refl)) (S (List.length inp)) w inp nm Hn) as (k & ps & B & K).
    exists k, ps. split; [lia |]. intros w' inp' P A. specialize (K w' inp' P A). cbn [do_read_wire_packet_labels]. destruct P as [L _]. rewrite <- L. exact K.
  - destruct (loop_local (2 * S l) (fun w => Some (fun i n => '(nm', _) <- do_read_wire_packet_labels l w i n ;; Ok nm'))) with (fuel := S (List.length inp)) (w := w) (inp := inp) (nm := nm) as (k & ps & B & K).
    + right. exists (fun w i n => '(nm', _) <- do_read_wire_packet_labels l w i n ;; Ok nm'), (2 * l)%nat. split; [lia |]. split; [reflexivity |].
      intros w1 i nm1 H1. destruct (IH w1 i nm1 H1) as (k & ps & B & K). exists k, ps. split; [exact B |]. intros w' i' P A. specialize (K w' i' P A). unfold same_result in K.
      destruct (do_read_wire_packet_labels l w1 i nm1) as [[n r] | [] | |]; [destruct K as [_ K] | | |]; rewrite K; reflexivity.
    + exact Hn.
    + exists k, ps. split; [exact B |]. intros w' inp' P A. specialize (K w' inp' P A). cbn [do_read_wire_packet_labels]. destruct P as [L _]. rewrite <- L. exact K.
Qed.

Lemma read_name_local inp pkt : exists k ps, (k + List.length ps <= 766)%nat /\ forall inp' pkt', List.length inp = List.length inp' -> firstn k inp = firstn k inp' -> AgreeAt ps pkt pkt' ->
  match read_wire_packet_name inp pkt with
  | Ok (n, rest) => rest = skipn k inp /\ read_wire_packet_name inp' pkt' = Ok (n, skipn k inp')
  | _ => read_wire_packet_name inp' pkt' = Err tt
  end.
Proof.
  destruct (do_read_local 255 pkt inp [] ltac:(cbn; lia)) as (k & ps & B & K). exists k, ps. split; [cbn in B; lia |].
  intros inp' pkt' L E A. specialize (K pkt' inp' (conj L E) A). unfold read_wire_packet_name.
  pose proof (do_read_no_crash 255 pkt inp []) as [NP NL]. unfold same_result in K.
  destruct (do_read_wire_packet_labels 255 pkt inp []) as [[n r] | [] | |]; [| | contradiction | contradiction].
  - destruct K as [-> K]. rewrite K. cbn [obind]. destruct (name_try_from n); [split; reflexivity | reflexivity].
  - rewrite K. reflexivity.
Qed.
