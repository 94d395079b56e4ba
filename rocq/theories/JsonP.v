(** Facts about the JSON grammar: a parser which accepts every text of the grammar (so a text has one
    value, and a text the parser refuses has none), and a weight argument against escapes. *)
From Verif Require Import Base BaseP RRM TextSpec JsonSpec.
From Coq Require Import String Lia.
Local Open Scope N_scope.

(** ** The parser. It is more liberal than the grammar about numbers; only completeness matters. *)
Definition is_ws (c : N) : bool := (c =? 32) || (c =? 9) || (c =? 10) || (c =? 13).
Fixpoint skip (s : list N) : list N := match s with c :: r => if is_ws c then skip r else s | [] => [] end.

Definition esc_value (e : N) : option N := match find (fun p => fst p =? e) escapes with Some p => Some (snd p) | None => None end.
Fixpoint pstr (s : list N) : option (list N * list N) :=
  match s with
  | [] => None
  | c :: r =>
      if c =? 34 then Some ([], r)
      else if c =? 92 then
        match r with
        | [] => None
        | e :: r1 =>
            if e =? 117 then
              match r1 with
              | c1 :: c2 :: c3 :: c4 :: r2 =>
                  match hex_value c1, hex_value c2, hex_value c3, hex_value c4 with
                  | Some h1, Some h2, Some h3, Some h4 =>
                      match pstr r2 with Some (d, q) => Some (utf8_char (4096 * h1 + 256 * h2 + 16 * h3 + h4) ++ d, q) | None => None end
                  | _, _, _, _ => None
                  end
              | _ => None
              end
            else match esc_value e with
                 | Some c' => match pstr r1 with Some (d, q) => Some (c' :: d, q) | None => None end
                 | None => None
                 end
        end
      else if c <? 32 then None
      else match pstr r with Some (d, q) => Some (c :: d, q) | None => None end
  end.

Definition numch (c : N) : bool := ((48 <=? c) && (c <=? 57)) || (c =? 43) || (c =? 45) || (c =? 46) || (c =? 69) || (c =? 101).
Fixpoint span (s : list N) : list N * list N :=
  match s with
  | c :: r => if numch c then let '(a, b) := span r in (c :: a, b) else ([], s)
  | [] => ([], [])
  end.
Fixpoint strip (p s : list N) : option (list N) :=
  match p, s with
  | [], _ => Some s
  | x :: p', y :: s' => if x =? y then strip p' s' else None
  | _, [] => None
  end.

Fixpoint pv (f : nat) (s : list N) : option (jval * list N) :=
  match f with
  | O => None
  | S f =>
    match s with
    | [] => None
    | c :: r =>
        if c =? 34 then match pstr r with Some (d, q) => Some (JStr d, q) | None => None end
        else if c =? 91 then
          match skip r with
          | c' :: r' => if c' =? 93 then Some (JArr [], r')
                        else match pa f (c' :: r') with Some (vs, q) => Some (JArr vs, q) | None => None end
          | [] => None
          end
        else if c =? 123 then
          match skip r with
          | c' :: r' => if c' =? 125 then Some (JObj [], r')
                        else match po f (c' :: r') with Some (kvs, q) => Some (JObj kvs, q) | None => None end
          | [] => None
          end
        else if c =? 116 then match strip (bs "true") s with Some q => Some (JBool true, q) | None => None end
        else if c =? 102 then match strip (bs "false") s with Some q => Some (JBool false, q) | None => None end
        else if c =? 110 then match strip (bs "null") s with Some q => Some (JNull, q) | None => None end
        else if numch c then let '(a, b) := span s in Some (JNum a, b) else None
    end
  end
with pa (f : nat) (s : list N) : option (list jval * list N) :=
  match f with
  | O => None
  | S f =>
      match pv f s with
      | None => None
      | Some (v, q) =>
          match skip q with
          | c :: q' => if c =? 93 then Some ([v], q')
                       else if c =? 44 then match pa f (skip q') with Some (vs, q2) => Some (v :: vs, q2) | None => None end
                       else None
          | [] => None
          end
      end
  end
with po (f : nat) (s : list N) : option (list (list N * jval) * list N) :=
  match f with
  | O => None
  | S f =>
      match s with
      | [] => None
      | c :: r =>
          if c =? 34 then
            match pstr r with
            | None => None
            | Some (k, q) =>
                match skip q with
                | [] => None
                | c1 :: q1 =>
                    if c1 =? 58 then
                      match pv f (skip q1) with
                      | None => None
                      | Some (v, q2) =>
                          match skip q2 with
                          | c3 :: q3 => if c3 =? 125 then Some ([(k, v)], q3)
                                        else if c3 =? 44 then match po f (skip q3) with Some (kvs, q4) => Some ((k, v) :: kvs, q4) | None => None end
                                        else None
                          | [] => None
                          end
                      end
                    else None
                end
            end
          else None
      end
  end.

(** ** Completeness *)
Lemma ws_is c : In c [32; 9; 10; 13] <-> is_ws c = true.
Proof.
  unfold is_ws. rewrite !Bool.orb_true_iff, !N.eqb_eq. cbn [In]. intuition congruence.
Qed.
Lemma skip_ws w r : Ws w -> skip (w ++ r) = skip r.
Proof. induction 1; [reflexivity |]. cbn [app skip]. apply ws_is in H. rewrite H. assumption. Qed.
Definition solid (s : list N) : Prop := match s with c :: _ => is_ws c = false | [] => True end.
Lemma skip_solid s : solid s -> skip s = s.
Proof. destruct s; cbn; [reflexivity |]. intros ->. reflexivity. Qed.

Lemma esc_complete e c : In (e, c) escapes -> esc_value e = Some c /\ e <> 117.
Proof.
  unfold escapes. cbn [In]. intros H.
  repeat (destruct H as [H | H]; [injection H as <- <-; split; [reflexivity | discriminate] |]). destruct H.
Qed.

Lemma pstr_complete s d : Str s d -> forall rest, pstr (s ++ 34 :: rest) = Some (d, rest).
Proof.
  induction 1; intros rest; cbn [app pstr].
  - reflexivity.
  - destruct (N.eqb_spec c 34); [contradiction |]. destruct (N.eqb_spec c 92); [contradiction |]. destruct (N.ltb_spec c 32); [lia |].
    rewrite IHStr. reflexivity.
  - change (92 =? 34) with false. change (92 =? 92) with true. cbn iota. destruct (esc_complete _ _ H) as [E NE].
    destruct (N.eqb_spec e 117); [contradiction |]. rewrite E, IHStr. reflexivity.
  - change (92 =? 34) with false. change (92 =? 92) with true. change (117 =? 117) with true. cbn iota. rewrite H, H0, H1, H2, IHStr. reflexivity.
Qed.

Lemma digit_numch c : is_digit c -> numch c = true.
Proof. unfold is_digit, numch. intros [A B]. apply N.leb_le in A, B. rewrite A, B. reflexivity. Qed.
Lemma number_chars s : Number s -> Forall (fun c => numch c = true) s /\ s <> [].
Proof.
  intros (m & i & f & e & -> & M & I & F & E).
  assert (DC : forall d, Digits d -> Forall (fun c => numch c = true) d) by (intros d [_ D]; eapply Forall_impl; [apply digit_numch | exact D]).
  split.
  - rewrite !Forall_app. repeat split.
    + destruct M as [-> | ->]; repeat constructor.
    + destruct I as [-> | [D _]]; [repeat constructor | auto].
    + destruct F as [-> | (d & -> & D)]; [constructor | constructor; [reflexivity | auto]].
    + destruct E as [-> | (x & sg & d & -> & X & SG & D)]; [constructor |]. constructor.
      * destruct X as [<- | [<- | []]]; reflexivity.
      * apply Forall_app. split; [| auto]. destruct SG as [<- | [<- | [<- | []]]]; repeat constructor.
  - intros C. apply app_eq_nil in C as [_ C]. apply app_eq_nil in C as [C _]. subst. destruct I as [I | [[I _] _]]; congruence.
Qed.
Definition delim (s : list N) : Prop := match s with c :: _ => numch c = false | [] => True end.
Lemma span_num s rest : Forall (fun c => numch c = true) s -> delim rest -> span (s ++ rest) = (s, rest).
Proof.
  induction 1; intros D; cbn [app span].
  - destruct rest; [reflexivity |]. cbn in D. cbn [span]. rewrite D. reflexivity.
  - rewrite H, IHForall by assumption. reflexivity.
Qed.
Lemma strip_app p s : strip p (p ++ s) = Some s.
Proof. induction p; cbn [app strip]; [destruct s; reflexivity |]. rewrite N.eqb_refl. assumption. Qed.

Lemma numch_cases c : numch c = true -> c <> 34 /\ c <> 91 /\ c <> 123 /\ c <> 116 /\ c <> 102 /\ c <> 110 /\ c <> 93 /\ c <> 125 /\ is_ws c = false.
Proof.
  intros H. repeat split; try (intros ->; discriminate).
  unfold is_ws. destruct (N.eqb_spec c 32); [subst; discriminate |]. destruct (N.eqb_spec c 9); [subst; discriminate |].
  destruct (N.eqb_spec c 10); [subst; discriminate |]. destruct (N.eqb_spec c 13); [subst; discriminate |]. reflexivity.
Qed.

Lemma delim_ws w c r : Ws w -> numch c = false -> delim (w ++ c :: r).
Proof.
  intros W H. destruct w as [| x w]; [exact H |]. inversion W; subst. cbn [app delim]. cbn [In] in H2.
  destruct H2 as [<- | [<- | [<- | [<- | []]]]]; reflexivity.
Qed.

Scheme Value_mind := Minimality for Value Sort Prop
  with Elements_mind := Minimality for Elements Sort Prop
  with Members_mind := Minimality for Members Sort Prop.
Combined Scheme json_mind from Value_mind, Elements_mind, Members_mind.

Definition EnoughV (s : list N) (v : jval) : Prop :=
  (exists c r, s = c :: r /\ is_ws c = false /\ c <> 93 /\ c <> 125) /\
  exists f0, forall f, (f0 <= f)%nat -> forall rest, delim rest -> pv f (s ++ rest) = Some (v, rest).
Definition EnoughA (s : list N) (vs : list jval) : Prop :=
  exists f0, forall f, (f0 <= f)%nat -> forall rest,
    pa f (skip (s ++ 93 :: rest)) = Some (vs, rest) /\ exists c r, skip (s ++ 93 :: rest) = c :: r /\ c <> 93.
Definition EnoughO (s : list N) (kvs : list (list N * jval)) : Prop :=
  exists f0, forall f, (f0 <= f)%nat -> forall rest,
    po f (skip (s ++ 125 :: rest)) = Some (kvs, rest) /\ exists c r, skip (s ++ 125 :: rest) = c :: r /\ c <> 125.

Ltac fuel f H := destruct f as [| f]; [exfalso; lia |].

Lemma enough_skip s v r : EnoughV s v -> skip (s ++ r) = s ++ r.
Proof. intros [(c & t & -> & W & _) _]. apply skip_solid. exact W. Qed.

(** Unfolding the parser on the shapes of the grammar. *)
Lemma pv_str f s d rest : Str s d -> pv (S f) (34 :: s ++ 34 :: rest) = Some (JStr d, rest).
Proof. intros H. cbn [pv]. change (34 =? 34) with true. cbn iota. rewrite (pstr_complete _ _ H). reflexivity. Qed.

Lemma po_pair f k kd w2 w3 s v q : Str k kd -> Ws w2 -> Ws w3 -> skip (s ++ q) = s ++ q -> pv f (s ++ q) = Some (v, q) ->
  po (S f) (34 :: k ++ 34 :: w2 ++ 58 :: w3 ++ s ++ q) =
  match skip q with
  | c3 :: q3 => if c3 =? 125 then Some ([(kd, v)], q3)
                else if c3 =? 44 then match po f (skip q3) with Some (kvs, q4) => Some ((kd, v) :: kvs, q4) | None => None end
                else None
  | [] => None
  end.
Proof.
  intros K W2 W3 SK PV. cbn [po]. change (34 =? 34) with true. cbn iota. rewrite (pstr_complete _ _ K).
  rewrite (skip_ws w2) by assumption. change (skip (58 :: w3 ++ s ++ q)) with (58 :: w3 ++ s ++ q). cbn iota.
  change (58 =? 58) with true. cbn iota. rewrite (skip_ws w3) by assumption. rewrite SK, PV. reflexivity.
Qed.

Lemma parser_complete :
  (forall s v, Value s v -> EnoughV s v) /\ (forall s vs, Elements s vs -> EnoughA s vs) /\ (forall s kvs, Members s kvs -> EnoughO s kvs).
Proof.
  apply json_mind.
  - split; [do 2 eexists; split; [reflexivity |]; repeat split; discriminate |]. exists 1%nat; intros f L rest D; fuel f L; reflexivity.
  - split; [do 2 eexists; split; [reflexivity |]; repeat split; discriminate |]. exists 1%nat; intros f L rest D; fuel f L; reflexivity.
  - split; [do 2 eexists; split; [reflexivity |]; repeat split; discriminate |]. exists 1%nat; intros f L rest D; fuel f L; reflexivity.
  - intros s H. destruct (number_chars s H) as [F NE]. destruct s as [| c r]; [congruence |]. inversion F as [| ? ? NC F']; subst.
    pose proof (numch_cases c NC) as (A1 & A2 & A3 & A4 & A5 & A6 & A7 & A8 & A9). split; [exists c, r; auto |].
    exists 1%nat; intros f L rest D; fuel f L. cbn [app pv].
    repeat match goal with |- context [c =? ?k] => destruct (N.eqb_spec c k); [contradiction |] end. rewrite NC.
    change (c :: r ++ rest) with ((c :: r) ++ rest). rewrite span_num by assumption. reflexivity.
  - intros s d H. split; [do 2 eexists; split; [reflexivity |]; repeat split; discriminate |]. exists 1%nat; intros f L rest D; fuel f L.
    cbn [app]. rewrite <- app_assoc. cbn [app]. apply pv_str, H.
  - intros w H. split; [do 2 eexists; split; [reflexivity |]; repeat split; discriminate |]. exists 1%nat; intros f L rest D; fuel f L.
    cbn [app]. rewrite <- app_assoc. cbn [app pv]. rewrite (skip_ws w) by assumption. reflexivity.
  - intros s vs _ (f0 & H). split; [do 2 eexists; split; [reflexivity |]; repeat split; discriminate |]. exists (S f0); intros f L rest D; fuel f L.
    cbn [app]. rewrite <- app_assoc. cbn [app pv]. destruct (H f ltac:(lia) rest) as [P (c & r & E & NE)]. rewrite E in *.
    change (91 =? 34) with false. change (91 =? 91) with true. cbn iota. destruct (N.eqb_spec c 93); [contradiction |]. rewrite P. reflexivity.
  - intros w H. split; [do 2 eexists; split; [reflexivity |]; repeat split; discriminate |]. exists 1%nat; intros f L rest D; fuel f L.
    cbn [app]. rewrite <- app_assoc. cbn [app pv]. rewrite (skip_ws w) by assumption. reflexivity.
  - intros s kvs _ (f0 & H). split; [do 2 eexists; split; [reflexivity |]; repeat split; discriminate |]. exists (S f0); intros f L rest D; fuel f L.
    cbn [app]. rewrite <- app_assoc. cbn [app pv]. destruct (H f ltac:(lia) rest) as [P (c & r & E & NE)]. rewrite E in *.
    change (123 =? 34) with false. change (123 =? 91) with false. change (123 =? 123) with true. cbn iota. destruct (N.eqb_spec c 125); [contradiction |]. rewrite P. reflexivity.
  - intros w1 s w2 v W1 _ E W2. pose proof E as [(c & r & Q & WS & C1 & C2) (f0 & H)]. exists (S f0). intros f L rest. fuel f L.
    rewrite <- !app_assoc. rewrite (skip_ws w1) by assumption. rewrite (enough_skip s v) by exact E. split.
    + cbn [pa]. rewrite (H f) by (lia || (apply delim_ws; [assumption | reflexivity])). rewrite (skip_ws w2) by assumption. reflexivity.
    + rewrite Q. cbn [app]. eauto.
  - intros w1 s w2 v r vs W1 _ E W2 _ (f1 & IH). pose proof E as [(c & r0 & Q & WS & C1 & C2) (f0 & H)]. exists (S (max f0 f1)). intros f L rest. fuel f L.
    rewrite <- !app_assoc. rewrite (skip_ws w1) by assumption. rewrite (enough_skip s v) by exact E. split.
    + cbn [pa app]. rewrite (H f) by (lia || (apply delim_ws; [assumption | reflexivity])). rewrite (skip_ws w2) by assumption.
      change (skip (44 :: r ++ 93 :: rest)) with (44 :: r ++ 93 :: rest). cbn iota. change (44 =? 93) with false. change (44 =? 44) with true. cbn iota.
      destruct (IH f ltac:(lia) rest) as [-> _]. reflexivity.
    + rewrite Q. cbn [app]. eauto.
  - intros w1 k kd w2 w3 s w4 v W1 K W2 W3 _ E W4. pose proof E as [_ (f0 & H)]. exists (S f0). intros f L rest. fuel f L.
    rewrite <- !app_assoc. rewrite (skip_ws w1) by assumption. cbn [app]. rewrite <- ?app_assoc. cbn [app].
    match goal with |- context [skip (34 :: ?x)] => change (skip (34 :: x)) with (34 :: x) end. split; [| do 2 eexists; split; [reflexivity | discriminate]].
    rewrite po_pair with (kd := kd) (v := v); try assumption.
    + rewrite (skip_ws w4) by assumption. reflexivity.
    + apply (enough_skip s v), E.
    + apply H; [lia |]. apply delim_ws; [assumption | reflexivity].
  - intros w1 k kd w2 w3 s w4 v r kvs W1 K W2 W3 _ E W4 _ (f1 & IH). pose proof E as [_ (f0 & H)]. exists (S (max f0 f1)). intros f L rest. fuel f L.
    rewrite <- !app_assoc. rewrite (skip_ws w1) by assumption. cbn [app]. rewrite <- ?app_assoc. cbn [app].
    match goal with |- context [skip (34 :: ?x)] => change (skip (34 :: x)) with (34 :: x) end. split; [| do 2 eexists; split; [reflexivity | discriminate]].
    rewrite po_pair with (kd := kd) (v := v); try assumption.
    + rewrite (skip_ws w4) by assumption. change (skip (44 :: r ++ 125 :: rest)) with (44 :: r ++ 125 :: rest). cbn iota.
      change (44 =? 125) with false. change (44 =? 44) with true. cbn iota. destruct (IH f ltac:(lia) rest) as [-> _]. reflexivity.
    + apply (enough_skip s v), E.
    + apply H; [lia |]. apply delim_ws; [assumption | reflexivity].
Qed.

Lemma ws_skip_nil w : Ws w -> skip w = [].
Proof. intros W. rewrite <- (app_nil_r w), skip_ws by assumption. reflexivity. Qed.

Lemma json_parses s v : Json s v -> exists f0, forall f, (f0 <= f)%nat -> exists w, pv f (skip s) = Some (v, w) /\ skip w = [].
Proof.
  intros [_ (w1 & t & w2 & W1 & W2 & -> & V)]. pose proof (proj1 parser_complete _ _ V) as E. pose proof E as [_ (f0 & H)]. exists f0. intros f L.
  exists w2. rewrite (skip_ws w1) by assumption. rewrite (enough_skip t v) by exact E. split; [| apply ws_skip_nil, W2].
  apply H; [exact L |]. destruct w2 as [| c w2]; [exact I |]. inversion W2; subst. cbn [delim]. cbn [In] in H2.
  destruct H2 as [<- | [<- | [<- | [<- | []]]]]; reflexivity.
Qed.

(** A text has at most one value. *)
Lemma json_unique s v v' : Json s v -> Json s v' -> v = v'.
Proof.
  intros H H'. apply json_parses in H as (f & H). apply json_parses in H' as (f' & H').
  destruct (H (max f f') ltac:(lia)) as (w & P & _). destruct (H' (max f f') ltac:(lia)) as (w' & P' & _). congruence.
Qed.

(** ** Weights: the number of characters other than blanks. *)
Definition w (s : list N) : nat := List.length (filter (fun c => negb (c =? 32)) s).
Lemma w_app a b : w (a ++ b) = (w a + w b)%nat.
Proof. unfold w. rewrite filter_app, app_length. reflexivity. Qed.
Lemma w_le s : (w s <= List.length s)%nat.
Proof. unfold w. induction s; cbn [filter List.length]; [lia |]. destruct (negb (a =? 32)); cbn [List.length]; lia. Qed.
Lemma w_cons c s : w (c :: s) = ((if c =? 32 then 0 else 1) + w s)%nat.
Proof. unfold w. cbn [filter]. destruct (c =? 32); reflexivity. Qed.

Fixpoint wv (v : jval) : nat :=
  match v with
  | JNull => 4
  | JBool true => 4
  | JBool false => 5
  | JNum s => w s
  | JStr s => 2 + w s
  | JArr vs => S (fold_right (fun v n => S (wv v) + n) 0 vs) + (match vs with [] => 1 | _ => 0 end)
  | JObj kvs => S (fold_right (fun kv n => 4 + w (fst kv) + wv (snd kv) + n) 0 kvs) + (match kvs with [] => 1 | _ => 0 end)
  end%nat.
Definition wa (vs : list jval) : nat := fold_right (fun v n => S (wv v) + n)%nat 0%nat vs.
Definition wo (kvs : list (list N * jval)) : nat := fold_right (fun kv n => 4 + w (fst kv) + wv (snd kv) + n)%nat 0%nat kvs.

Lemma utf8_char_len c : c < 65536 -> (List.length (utf8_char c) <= 3)%nat.
Proof. intros H. unfold utf8_char. destruct (c <? 128); [cbn; lia |]. destruct (c <? 2048); [cbn; lia |]. destruct (N.ltb_spec c 65536); [cbn; lia | lia]. Qed.
Lemma hex_value_lt c h : hex_value c = Some h -> h < 16 /\ c <> 32.
Proof.
  unfold hex_value. destruct (N.leb_spec 48 c), (N.leb_spec c 57); cbn [andb]; try (intros E; injection E as <-; lia);
  destruct (N.leb_spec 65 c), (N.leb_spec c 70); cbn [andb]; try (intros E; injection E as <-; lia);
  destruct (N.leb_spec 97 c), (N.leb_spec c 102); cbn [andb]; try (intros E; injection E as <-; lia); try discriminate.
Qed.
Lemma w_nonblank c s : c <> 32 -> w (c :: s) = S (w s).
Proof. intros H. rewrite w_cons. destruct (N.eqb_spec c 32); [contradiction | reflexivity]. Qed.

Lemma str_weight r d : Str r d -> (w d <= w r)%nat /\ (In 92 r -> (w d < w r)%nat).
Proof.
  induction 1 as [| c r d C1 C2 C3 S [I1 I2] | e c r d E S [I1 I2] | c1 c2 c3 c4 h1 h2 h3 h4 r d H1 H2 H3 H4 S [I1 I2]].
  - split; [reflexivity | intros []].
  - rewrite !w_cons. split; [lia |]. intros [-> | I]; [contradiction |]. specialize (I2 I). lia.
  - assert (EB : e <> 32) by (intros ->; cbn in E; intuition congruence). rewrite !(w_nonblank 92), (w_nonblank e) by (assumption || discriminate).
    rewrite w_cons. destruct (c =? 32); lia.
  - apply hex_value_lt in H1, H2, H3, H4. rewrite !(w_nonblank 92), (w_nonblank 117), (w_nonblank c1), (w_nonblank c2), (w_nonblank c3), (w_nonblank c4) by (apply H1 || apply H2 || apply H3 || apply H4 || discriminate).
    rewrite w_app. pose proof (w_le (utf8_char (4096 * h1 + 256 * h2 + 16 * h3 + h4))). pose proof (utf8_char_len (4096 * h1 + 256 * h2 + 16 * h3 + h4) ltac:(lia)). lia.
Qed.

Lemma ws_no_backslash s : Ws s -> ~ In 92 s.
Proof. intros W I. unfold Ws in W. rewrite Forall_forall in W. apply W in I. cbn in I. intuition discriminate. Qed.
Lemma num_no_backslash s : Number s -> ~ In 92 s.
Proof. intros W I. apply number_chars in W as [W _]. rewrite Forall_forall in W. apply W in I. discriminate. Qed.

Definition lighter (n : nat) (s : list N) : Prop := (n <= w s)%nat /\ (In 92 s -> (n < w s)%nat).
Lemma lighter_app n m a b : lighter n a -> lighter m b -> lighter (n + m) (a ++ b).
Proof. intros [A1 A2] [B1 B2]. unfold lighter. rewrite w_app, in_app_iff. split; [lia |]. intros [I | I]; [specialize (A2 I) | specialize (B2 I)]; lia. Qed.
Lemma lighter_ws s : Ws s -> lighter 0 s.
Proof. intros W. split; [lia |]. intros I. destruct (ws_no_backslash _ W I). Qed.
Lemma lighter_self s : ~ In 92 s -> lighter (w s) s.
Proof. intros NI. split; [lia | contradiction]. Qed.
Lemma lighter_le n m s : (n <= m)%nat -> lighter m s -> lighter n s.
Proof. intros L [A B]. split; [lia |]. intros I. specialize (B I). lia. Qed.
Lemma lighter_one c : c <> 32 -> c <> 92 -> lighter 1 [c].
Proof. intros A B. split; [rewrite w_nonblank by assumption; lia |]. intros [I | []]; congruence. Qed.

Lemma value_weight : (forall s v, Value s v -> lighter (wv v) s) /\ (forall s vs, Elements s vs -> vs <> [] /\ lighter (wa vs) (s ++ [93])) /\
  (forall s kvs, Members s kvs -> kvs <> [] /\ lighter (wo kvs) (s ++ [125])).
Proof.
  assert (C : forall c n s, c <> 32 -> c <> 92 -> lighter n s -> lighter (S n) (c :: s)).
  { intros c n s A B L. change (S n) with (1 + n)%nat. change (c :: s) with ([c] ++ s). apply lighter_app; [apply lighter_one; assumption | exact L]. }
  assert (CR : forall c n s, c <> 32 -> c <> 92 -> lighter n s -> lighter (n + 1) (s ++ [c])).
  { intros c n s A B L. apply lighter_app; [exact L | apply lighter_one; assumption]. }
  apply json_mind.
  - apply (lighter_self (bs "null")). cbn. intuition discriminate.
  - apply (lighter_self (bs "true")). cbn. intuition discriminate.
  - apply (lighter_self (bs "false")). cbn. intuition discriminate.
  - intros s H. apply lighter_self, num_no_backslash, H.
  - intros s d H. cbn [wv app]. apply C; try discriminate. apply (lighter_le _ (w d + 1)); [lia |]. apply CR; try discriminate. apply str_weight, H.
  - intros s H. cbn [wv app fold_right]. apply C; try discriminate. apply (lighter_le _ (0 + 1)); [lia |]. apply CR; try discriminate. apply lighter_ws, H.
  - intros s vs _ [NE H]. cbn [wv app]. fold (wa vs). destruct vs; [congruence |]. eapply lighter_le; [| apply C; [| | exact H]; discriminate]; lia.
  - intros s H. cbn [wv app fold_right]. apply C; try discriminate. apply (lighter_le _ (0 + 1)); [lia |]. apply CR; try discriminate. apply lighter_ws, H.
  - intros s kvs _ [NE H]. cbn [wv app]. fold (wo kvs). destruct kvs; [congruence |]. eapply lighter_le; [| apply C; [| | exact H]; discriminate]; lia.
  - intros w1 s w2 v W1 _ H W2. split; [discriminate |]. unfold wa. cbn [fold_right].
    apply (lighter_le _ ((0 + (wv v + 0)) + 1)); [lia |]. apply CR; try discriminate. repeat apply lighter_app; auto using lighter_ws.
  - intros w1 s w2 v r vs W1 _ H W2 _ [NE IH]. split; [discriminate |]. unfold wa. cbn [fold_right]. fold (wa vs). rewrite <- !app_assoc. cbn [app].
    apply (lighter_le _ (0 + (wv v + (0 + S (wa vs))))); [lia |]. repeat apply lighter_app; auto using lighter_ws. apply C; auto; discriminate.
  - intros w1 k kd w2 w3 s w4 v W1 K W2 W3 _ H W4. split; [discriminate |]. unfold wo. cbn [fold_right fst snd].
    apply (lighter_le _ ((0 + (1 + (w kd + (1 + (0 + (1 + (0 + (wv v + 0)))))))) + 1)); [lia |]. apply CR; try discriminate.
    repeat apply lighter_app; auto using lighter_ws; try (apply lighter_one; discriminate). apply str_weight, K.
  - intros w1 k kd w2 w3 s w4 v r kvs W1 K W2 W3 _ H W4 _ [NE IH]. split; [discriminate |]. unfold wo. cbn [fold_right fst snd]. fold (wo kvs).
    apply (lighter_le _ (0 + (1 + (w kd + (1 + (0 + (1 + (0 + (wv v + (0 + (1 + wo kvs))))))))))); [lia |]. rewrite <- !app_assoc.
    repeat apply lighter_app; auto using lighter_ws; try (apply lighter_one; discriminate). apply str_weight, K.
Qed.

(** So a text with a backslash is heavier than its value. *)
Lemma json_weight s v : Json s v -> In 92 s -> (wv v < w s)%nat.
Proof.
  intros [_ (w1 & t & w2 & W1 & W2 & -> & V)] I. apply (proj1 value_weight) in V.
  apply (lighter_le (wv v) (0 + (wv v + 0))); [lia | | exact I]. repeat apply lighter_app; auto using lighter_ws.
Qed.
