(** What a JSON reader makes of the JSON of results, escapes in names included (C52). *)
From Verif Require Import Base BaseP NameSpec NameM NameP WireM RRM RecSpec SerM ValM ValSpec ValP3 HeldP TextSpec TextP JsonM JsonSpec JsonP JsonP2 JsonP3 JsonP4 JsonP5.
From Coq Require Import Permutation String Lia.
Local Open Scope N_scope.

(** ** More fuel changes nothing *)
Lemma parser_mono f : (forall s r, pv f s = Some r -> pv (S f) s = Some r) /\ (forall s r, pa f s = Some r -> pa (S f) s = Some r) /\ (forall s r, po f s = Some r -> po (S f) s = Some r).
Proof.
  induction f as [| f (IV & IA & IO)]; [repeat split; intros s r H; discriminate H |]. repeat split; intros s r H.
  - cbn [pv] in H. destruct s as [| c s]; [discriminate |]. remember (S f) as g. cbn [pv]. subst g.
    destruct (c =? 34); [exact H |]. destruct (c =? 91).
    { destruct (skip s) as [| c' r']; [discriminate |]. destruct (c' =? 93); [exact H |]. destruct (pa f (c' :: r')) as [[vs q] |] eqn:P; [| discriminate]. rewrite (IA _ _ P). exact H. }
    destruct (c =? 123); [| exact H].
    destruct (skip s) as [| c' r']; [discriminate |]. destruct (c' =? 125); [exact H |]. destruct (po f (c' :: r')) as [[vs q] |] eqn:P; [| discriminate]. rewrite (IO _ _ P). exact H.
  - cbn [pa] in H. remember (S f) as g. cbn [pa]. subst g. destruct (pv f s) as [[v q] |] eqn:P; [| discriminate]. rewrite (IV _ _ P).
    destruct (skip q) as [| c q']; [discriminate |]. destruct (c =? 93); [exact H |]. destruct (c =? 44); [| discriminate].
    destruct (pa f (skip q')) as [[vs q2] |] eqn:P2; [| discriminate]. rewrite (IA _ _ P2). exact H.
  - cbn [po] in H. destruct s as [| c s]; [discriminate |]. remember (S f) as g. cbn [po]. subst g. destruct (c =? 34); [| discriminate].
    destruct (pstr s) as [[k q] |]; [| discriminate]. destruct (skip q) as [| c1 q1]; [discriminate |]. destruct (c1 =? 58); [| discriminate].
    destruct (pv f (skip q1)) as [[v q2] |] eqn:P; [| discriminate]. rewrite (IV _ _ P). destruct (skip q2) as [| c3 q3]; [discriminate |]. destruct (c3 =? 125); [exact H |].
    destruct (c3 =? 44); [| discriminate]. destruct (po f (skip q3)) as [[vs q4] |] eqn:P2; [| discriminate]. rewrite (IO _ _ P2). exact H.
Qed.
Lemma pv_mono f g s r : (f <= g)%nat -> pv f s = Some r -> pv g s = Some r.
Proof. induction 1; intros H1; [exact H1 | apply parser_mono; auto]. Qed.

(** ** Texts which are read in one way, if at all *)
Definition Only (P : jval -> Prop) (t : list N) : Prop :=
  (exists c r, t = c :: r /\ is_ws c = false /\ c <> 93 /\ c <> 125) /\
  forall f q v rest, delim q -> pv f (t ++ q) = Some (v, rest) -> rest = q /\ P v.
Lemma only_value t v0 (P : jval -> Prop) : Value t v0 -> P v0 -> Only P t.
Proof.
  intros V H. destruct (proj1 parser_complete _ _ V) as [A (f0 & B)]. split; [exact A |]. intros f q v rest D E.
  apply (pv_mono f (max f f0)) in E; [| lia]. rewrite (B (max f f0)) in E by (lia || exact D). injection E as <- <-. auto.
Qed.
Lemma esc_sound e c : esc_value e = Some c -> In (e, c) escapes.
Proof.
  unfold esc_value. destruct (find (fun p => fst p =? e) escapes) as [[a b] |] eqn:F; [| discriminate]. intros H. injection H as <-.
  apply find_some in F as [I E]. apply N.eqb_eq in E. cbn [fst] in E. subst. exact I.
Qed.
Lemma pstr_sound n : forall s d q, (List.length s <= n)%nat -> pstr s = Some (d, q) -> exists t, s = t ++ 34 :: q /\ Str t d.
Proof.
  induction n; intros s d q L H; (destruct s as [| c s]; [discriminate H |]); [cbn in L; lia |]. cbn [pstr] in H. cbn [List.length] in L.
  destruct (N.eqb_spec c 34) as [-> | N1]; [injection H as <- <-; exists []; split; [reflexivity | constructor] |].
  destruct (N.eqb_spec c 92) as [-> | N2].
  - destruct s as [| e s]; [discriminate |]. destruct (N.eqb_spec e 117) as [-> | N3].
    + destruct s as [| c1 [| c2 [| c3 [| c4 s]]]]; try discriminate. destruct (hex_value c1) eqn:E1; [| discriminate]. destruct (hex_value c2) eqn:E2; [| discriminate].
      destruct (hex_value c3) eqn:E3; [| discriminate]. destruct (hex_value c4) eqn:E4; [| discriminate]. destruct (pstr s) as [[d' q'] |] eqn:P; [| discriminate].
      injection H as <- <-. destruct (IHn s d' q') as (t & -> & T); [cbn [List.length] in L; lia | exact P |].
      exists (92 :: 117 :: c1 :: c2 :: c3 :: c4 :: t). split; [reflexivity |]. constructor; assumption.
    + destruct (esc_value e) eqn:E; [| discriminate]. destruct (pstr s) as [[d' q'] |] eqn:P; [| discriminate]. injection H as <- <-.
      destruct (IHn s d' q') as (t & -> & T); [cbn [List.length] in L; lia | exact P |]. exists (92 :: e :: t). split; [reflexivity |]. constructor; [apply esc_sound, E | exact T].
  - destruct (N.ltb_spec c 32); [discriminate |]. destruct (pstr s) as [[d' q'] |] eqn:P; [| discriminate]. injection H as <- <-.
    destruct (IHn s d' q') as (t & -> & T); [lia | exact P |]. exists (c :: t). split; [reflexivity |]. constructor; assumption.
Qed.
Lemma only_quoted s : ~ In 34 s -> (s = [] \/ last s 0 <> 92) -> Only (fun v => exists d, Str s d /\ v = JStr d) (quoted s).
Proof.
  intros NQ LA. split; [exists 34, (s ++ [34]); repeat split; discriminate |]. intros f q v rest _ H.
  destruct (quoted_runs s q NQ LA f) as [E | (v' & E)]; [rewrite E in H; discriminate |]. rewrite E in H. injection H as <- <-. split; [reflexivity |].
  destruct f; [discriminate E |]. unfold quoted, q1 in E. cbn [app] in E. rewrite <- app_assoc in E. cbn [app pv] in E. change (dquote =? 34) with true in E. cbn iota in E. change dquote with 34 in E.
  destruct (pstr (s ++ 34 :: q)) as [[d q'] |] eqn:PS; [| discriminate]. injection E as E1 E2. subst q'.
  destruct (pstr_sound _ _ _ _ (le_n _) PS) as (t & T1 & T2). apply app_inv_tail in T1. subst t. eauto.
Qed.
Lemma only_impl (P Q : jval -> Prop) t : (forall v, P v -> Q v) -> Only P t -> Only Q t.
Proof. intros H [A B]. split; [exact A |]. intros f q v rest D E. destruct (B f q v rest D E). auto. Qed.
Lemma only_skip P t q : Only P t -> skip (t ++ q) = t ++ q.
Proof. intros [(c & r & -> & W & _) _]. apply skip_solid. exact W. Qed.

Lemma skip_comma w r : Ws w -> skip (44 :: w ++ r) = 44 :: w ++ r.
Proof. reflexivity. Qed.

(** ** Arrays and objects *)
Lemma only_elements {A} (P : A -> jval -> Prop) (text : A -> list N) w0 l : Ws w0 -> Forall (fun x => Only (P x) (text x)) l -> l <> [] ->
  forall f q vs rest, pa f (sep_list (44 :: w0) (map text l) ++ 93 :: q) = Some (vs, rest) -> rest = q /\ Forall2 P l vs.
Proof.
  intros W F. induction F as [| x l HX F IH]; intros NE f q vs rest H; [congruence |]. destruct f as [| f]; [discriminate |].
  destruct l as [| y l].
  - cbn [map sep_list] in H. cbn [pa] in H. destruct (pv f (text x ++ 93 :: q)) as [[v q'] |] eqn:P1; [| discriminate].
    destruct (proj2 HX f (93 :: q) v q' eq_refl P1) as [-> PX]. change (skip (93 :: q)) with (93 :: q) in H. cbn iota in H. change (93 =? 93) with true in H. cbn iota in H.
    injection H as <- <-. split; [reflexivity |]. repeat constructor. exact PX.
  - change (sep_list (44 :: w0) (map text (x :: y :: l))) with (text x ++ (44 :: w0) ++ sep_list (44 :: w0) (map text (y :: l))) in H. rewrite <- !app_assoc in H. cbn [app] in H. cbn [pa] in H.
    destruct (pv f (text x ++ 44 :: w0 ++ sep_list (44 :: w0) (map text (y :: l)) ++ 93 :: q)) as [[v q'] |] eqn:P1; [| discriminate].
    apply (proj2 HX) in P1 as [-> PX]; [| reflexivity].
    match type of H with context [skip (44 :: ?z)] => change (skip (44 :: z)) with (44 :: z) in H end. cbn iota in H. change (44 =? 93) with false in H. change (44 =? 44) with true in H. cbn iota in H.
    rewrite skip_ws in H by exact W.
    assert (SK : skip (sep_list (44 :: w0) (map text (y :: l)) ++ 93 :: q) = sep_list (44 :: w0) (map text (y :: l)) ++ 93 :: q).
    { inversion F as [| ? ? HY F2]; subst. destruct l as [| z l]; [apply (only_skip _ _ _ HY) |].
      change (sep_list (44 :: w0) (map text (y :: z :: l))) with (text y ++ (44 :: w0) ++ sep_list (44 :: w0) (map text (z :: l))). rewrite <- app_assoc. apply (only_skip _ _ _ HY). }
    rewrite SK in H. destruct (pa f (sep_list (44 :: w0) (map text (y :: l)) ++ 93 :: q)) as [[vs' q2] |] eqn:P2; [| discriminate]. injection H as <- <-.
    destruct (IH ltac:(discriminate) f q vs' q2 P2) as [-> F2]. split; [reflexivity |]. constructor; assumption.
Qed.
Lemma first_char {A} (P : A -> jval -> Prop) (text : A -> list N) w0 l q : Forall (fun x => Only (P x) (text x)) l -> l <> [] ->
  exists c r, sep_list (44 :: w0) (map text l) ++ q = c :: r /\ is_ws c = false /\ c <> 93 /\ c <> 125.
Proof.
  intros F NE. destruct F as [| x l HX F]; [congruence |]. destruct (proj1 HX) as (c & r & E & H).
  destruct l as [| y l]; cbn [map sep_list]; rewrite E; cbn [app]; eauto.
Qed.
Lemma only_array {A} (P : A -> jval -> Prop) (text : A -> list N) w0 l : Ws w0 -> Forall (fun x => Only (P x) (text x)) l ->
  Only (fun v => exists vs, v = JArr vs /\ Forall2 P l vs) (bs "[" ++ sep_list (44 :: w0) (map text l) ++ bs "]").
Proof.
  intros W F. split; [exists 91; eexists; repeat split; discriminate |]. intros f q v rest D H. rewrite <- !app_assoc in H. cbn [app] in H.
  change (bs "[" ++ ?x) with (91 :: x) in H. change (bs "]" ++ q) with (93 :: q) in H. destruct f as [| f]; [discriminate |]. cbn [app pv] in H.
  change (91 =? 34) with false in H. change (91 =? 91) with true in H. cbn iota in H.
  destruct l as [| x l].
  - cbn [map sep_list app] in H. change (skip (93 :: q)) with (93 :: q) in H. cbn iota in H. change (93 =? 93) with true in H. cbn iota in H. injection H as <- <-. split; [reflexivity |]. exists []. auto.
  - destruct (first_char P text w0 (x :: l) (93 :: q) F ltac:(discriminate)) as (c & r & E & WS & C1 & _).
    assert (SK : skip (sep_list (44 :: w0) (map text (x :: l)) ++ 93 :: q) = sep_list (44 :: w0) (map text (x :: l)) ++ 93 :: q) by (rewrite E; apply skip_solid; exact WS).
    change (93 :: q) with ([93] ++ q) in *. rewrite SK, E in H. destruct (N.eqb_spec c 93); [contradiction |]. rewrite <- E in H.
    destruct (pa f (sep_list (44 :: w0) (map text (x :: l)) ++ [93] ++ q)) as [[vs q'] |] eqn:P1; [| discriminate]. injection H as <- <-.
    destruct (only_elements P text w0 (x :: l) W F ltac:(discriminate) f q vs q' P1) as [-> F2]. eauto.
Qed.
Lemma only_members {A} (P : A -> jval -> Prop) (k text : A -> list N) w0 kc l : Ws w0 -> Ws kc -> Forall (fun x => Str (k x) (k x) /\ Only (P x) (text x)) l -> l <> [] ->
  forall f q kvs rest, po f (sep_list (44 :: w0) (map (fun x => quoted (k x) ++ 58 :: kc ++ text x) l) ++ 125 :: q) = Some (kvs, rest) ->
  rest = q /\ Forall2 (fun x kv => fst kv = k x /\ P x (snd kv)) l kvs.
Proof.
  intros W WK F. induction F as [| x l [HK HX] F IH]; intros NE f q kvs rest H; [congruence |]. destruct f as [| f]; [discriminate |].
  assert (STEP : forall z q2, po (S f) (quoted (k x) ++ 58 :: kc ++ text x ++ z :: q2) = Some (kvs, rest) -> numch z = false ->
    exists v, pv f (text x ++ z :: q2) = Some (v, z :: q2) /\ P x v /\
      match skip (z :: q2) with
      | c3 :: q3 => if c3 =? 125 then Some ([(k x, v)], q3)
                    else if c3 =? 44 then match po f (skip q3) with Some (kvs, q4) => Some ((k x, v) :: kvs, q4) | None => None end
                    else None
      | [] => None
      end = Some (kvs, rest)).
  { intros z q2 E NC. unfold quoted, q1 in E. cbn [app] in E. rewrite <- app_assoc in E. cbn [app po] in E. change (dquote =? 34) with true in E. cbn iota in E. change dquote with 34 in E.
    rewrite (pstr_complete _ _ HK) in E. match type of E with context [skip (58 :: ?y)] => change (skip (58 :: y)) with (58 :: y) in E end. cbn iota in E. change (58 =? 58) with true in E. cbn iota in E.
    rewrite (skip_ws kc) in E by exact WK. rewrite (only_skip _ _ _ HX) in E. destruct (pv f (text x ++ z :: q2)) as [[v q'] |] eqn:P1; [| discriminate].
    destruct (proj2 HX f (z :: q2) v q' NC P1) as [-> PX]. eauto. }
  destruct l as [| y l].
  - cbn [map sep_list] in H. rewrite <- !app_assoc in H. cbn [app] in H. rewrite <- app_assoc in H. apply STEP in H as (v & P1 & PX & H); [| reflexivity].
    change (skip (125 :: q)) with (125 :: q) in H. cbn iota in H. change (125 =? 125) with true in H. cbn iota in H. injection H as <- <-. split; [reflexivity |]. repeat constructor. exact PX.
  - set (m := map (fun x => quoted (k x) ++ 58 :: kc ++ text x)) in *.
    change (sep_list (44 :: w0) (m (x :: y :: l))) with ((quoted (k x) ++ 58 :: kc ++ text x) ++ (44 :: w0) ++ sep_list (44 :: w0) (m (y :: l))) in H.
    rewrite <- !app_assoc in H. cbn [app] in H. rewrite <- !app_assoc in H. apply STEP in H as (v & P1 & PX & H); [| reflexivity].
    match type of H with context [skip (44 :: ?z)] => change (skip (44 :: z)) with (44 :: z) in H end. cbn iota in H. change (44 =? 125) with false in H. change (44 =? 44) with true in H. cbn iota in H.
    rewrite skip_ws in H by exact W.
    assert (SK : skip (sep_list (44 :: w0) (m (y :: l)) ++ 125 :: q) = sep_list (44 :: w0) (m (y :: l)) ++ 125 :: q).
    { apply skip_solid. destruct l as [| z l]; exact eq_refl. }
    rewrite SK in H. destruct (po f (sep_list (44 :: w0) (m (y :: l)) ++ 125 :: q)) as [[vs' q2] |] eqn:P2; [| discriminate]. injection H as <- <-.
    destruct (IH ltac:(discriminate) f q vs' q2 P2) as [-> F2]. split; [reflexivity |]. constructor; [split; [reflexivity | exact PX] | exact F2].
Qed.
Lemma only_object {A} (P : A -> jval -> Prop) (k text : A -> list N) w0 kc l : Ws w0 -> Ws kc -> Forall (fun x => Str (k x) (k x) /\ Only (P x) (text x)) l -> l <> [] ->
  Only (fun v => exists kvs, v = JObj kvs /\ Forall2 (fun x kv => fst kv = k x /\ P x (snd kv)) l kvs)
    (bs "{" ++ sep_list (44 :: w0) (map (fun x => quoted (k x) ++ 58 :: kc ++ text x) l) ++ bs "}").
Proof.
  intros W WK F NE. split; [exists 123; eexists; repeat split; discriminate |]. intros f q v rest D H. rewrite <- !app_assoc in H.
  change (bs "{" ++ ?x) with (123 :: x) in H. change (bs "}" ++ q) with (125 :: q) in H. destruct f as [| f]; [discriminate |]. cbn [pv] in H.
  change (123 =? 34) with false in H. change (123 =? 91) with false in H. change (123 =? 123) with true in H. cbn iota in H.
  set (m := map (fun x => quoted (k x) ++ 58 :: kc ++ text x) l) in *.
  assert (E : exists r, sep_list (44 :: w0) m ++ 125 :: q = 34 :: r).
  { subst m. destruct l as [| x [| y l]]; [congruence | |]; eexists; exact eq_refl. }
  destruct E as (r & E). rewrite E in H. change (skip (34 :: r)) with (34 :: r) in H. cbn iota in H. change (34 =? 125) with false in H. cbn iota in H. rewrite <- E in H.
  destruct (po f (sep_list (44 :: w0) m ++ 125 :: q)) as [[kvs q'] |] eqn:P1; [| discriminate]. injection H as <- <-.
  destruct (only_members P k text w0 kc l W WK F NE f q kvs q' P1) as [-> F2]. eauto.
Qed.

(** ** Records and results *)
Definition text_end (f : field) : Prop := match f with FText s => s = [] \/ last s 0 <> 92 | _ => True end.
Lemma only_field f : field_ok f -> text_end f -> Only (Reads f) (fld_text f).
Proof.
  intros OK TE. destruct f as [s | n | l | l | m | l].
  { cbn [fld_text Reads]. apply only_quoted; [| exact TE]. intros I. cbn [field_ok] in OK. unfold quotable in OK. rewrite Forall_forall in OK. apply OK in I. lia. }
  all: match goal with |- Only (Reads ?f) _ => destruct (field_shown f OK I) as (v & V & S); exact (only_value _ _ _ V S) end.
Qed.
Lemma fields_end r : Held r -> Forall (fun kf => text_end (snd kf)) (fields r).
Proof.
  intros H. unfold Held in H. destruct r as [r|r|r|r|r|r|r|r|r|r|r|r]; cbn [typed_rr] in H; repeat match type of H with _ /\ _ => let A := fresh "A" in destruct H as [A H] end;
  repeat (constructor; [cbn [snd text_end]; first [exact I | apply held_name_quote; assumption | right; discriminate] |]); constructor.
Qed.
Lemma only_record r : Held r -> ~ is_rrsig r -> Only (ReadsAs r) (rr_json r).
Proof.
  intros H NS. rewrite (rr_json_obj r NS). unfold obj_text.
  replace (map pair_text (fields r)) with (map (fun kf => quoted (bs (fst kf)) ++ 58 :: [] ++ fld_text (snd kf)) (fields r)).
  2:{ apply map_ext. intros kf. unfold pair_text, key. rewrite <- app_assoc. reflexivity. }
  apply (only_object (fun kf => Reads (snd kf)) (fun kf => bs (fst kf)) (fun kf => fld_text (snd kf)) [] [] (fields r)); [constructor | constructor | |destruct r; discriminate].
  pose proof (fields_ok r H) as F. pose proof (fields_end r H) as T. rewrite Forall_forall in *. intros kf I. destruct (F kf I) as (A & B & C). split; [apply quotable_str; assumption |]. apply only_field; auto.
Qed.
Lemma only_json P t v : Only P t -> Json t v -> P v.
Proof.
  intros O J. apply json_parses in J as (f0 & J). destruct (J f0 (le_n _)) as (w & E & _). pose proof (only_skip P t [] O) as SK. rewrite app_nil_r in SK. rewrite SK in E.
  rewrite <- (app_nil_r t) in E. apply (proj2 O) in E; [| exact I]. apply E.
Qed.
Lemma record_reads r v : Held r -> ~ is_rrsig r -> Json (rr_json r) v -> ReadsAs r v.
Proof. intros H NS J. exact (only_json _ _ _ (only_record r H NS) J). Qed.

Inductive part := PNum (n : N) | PRecords (l : list RR).
Definition part_text (p : part) : list N := match p with PNum n => dec n | PRecords l => records_text l end.
Definition part_reads (p : part) (v : jval) : Prop := match p with PNum n => ShowsNum n v | PRecords l => exists vs, v = JArr vs /\ Forall2 ReadsAs l vs end.
Lemma result_reads v j : Forall Held (vr_rrs v) -> Forall (fun r => ~ is_rrsig r) (vr_rrs v) -> Json (verified_json v) j -> ReadsResult v j.
Proof.
  intros H S J. set (l := [(bs "valid_from", PNum (vr_valid_from v)); (bs "expires", PNum (vr_expires v)); (bs "max_cache_ttl", PNum (vr_max_cache_ttl v)); (bs "verified_rrs", PRecords (vr_rrs v))]).
  assert (O : Only (fun v => exists kvs, v = JObj kvs /\ Forall2 (fun x kv => fst kv = fst x /\ part_reads (snd x) (snd kv)) l kvs)
    (bs "{" ++ sep_list (44 :: [32]) (map (fun x => quoted (fst x) ++ 58 :: [32] ++ part_text (snd x)) l) ++ bs "}")).
  { apply (only_object (fun x => part_reads (snd x)) fst (fun x => part_text (snd x)) [32] [32] l); [repeat constructor | repeat constructor | | discriminate].
    assert (N : forall n, Only (ShowsNum n) (dec n)) by (intros n; apply (only_value _ (JNum (dec n))); [apply value_dec | exists (dec n); split; [reflexivity | apply dec_decimal]]).
    unfold l. repeat (constructor; [split; [cbn [fst]; lit | cbn [snd part_text part_reads]; try apply N] |]); [| constructor].
    apply (only_array ReadsAs rr_json [32] (vr_rrs v)); [repeat constructor |]. rewrite Forall_forall in *. intros r I. apply only_record; auto. }
  rewrite verified_json_obj in J. destruct (only_json _ _ _ O J) as (kvs & EJ & F). rewrite EJ. clear O H S J EJ. unfold l in F. clear l.
  assert (C : forall A B (R : A -> B -> Prop) x l k, Forall2 R (x :: l) k -> exists y k', k = y :: k' /\ R x y /\ Forall2 R l k').
  { intros A B R x m k G. inversion G; subst. eauto. }
  do 4 (apply C in F as ([? ?] & ? & -> & [? ?] & F)). apply Forall2_nil_l in F || inversion F. subst. cbn [fst snd part_reads] in *. subst.
  match goal with X : exists vs, _ = JArr vs /\ _ |- _ => destruct X as (vs & -> & X) end. do 4 eexists. split; [reflexivity |]. auto.
Qed.
Lemma byte_stream_reads e dbg fuel stream text j : is_bytes stream -> verify_byte_stream e dbg fuel stream = Ok text -> Json text j ->
  (exists rrs v, parse_rr_stream dbg stream = Ok rrs /\ verify_rr_stream e dbg fuel rrs = Ok v /\ ReadsResult v j) \/
  (exists x, DescribesError x j /\ ((x = Invalid /\ exists p, parse_rr_stream dbg stream = Err p) \/ exists rrs, parse_rr_stream dbg stream = Ok rrs /\ verify_rr_stream e dbg fuel rrs = Err x)).
Proof.
  intros B H J. pose proof H as H0. unfold verify_byte_stream in H. destruct (parse_rr_stream dbg stream) as [rrs | p | |] eqn:P; try discriminate.
  - destruct (verify_rr_stream e dbg fuel rrs) as [v | x | |] eqn:V; try discriminate; injection H as <-.
    + left. exists rrs, v. split; [reflexivity |]. split; [exact V |]. destruct (verified_not_rrsig _ _ _ _ _ (parsed_held _ _ _ B P) V) as [HH S]. apply result_reads; assumption.
    + right. destruct (error_shown x) as (j' & J' & D). rewrite (json_unique _ _ _ J J'). exists x. split; [exact D |]. right. eauto.
  - injection H as <-. right. destruct (error_shown Invalid) as (j' & J' & D). rewrite (json_unique _ _ _ J J'). exists Invalid. split; [exact D |]. left. eauto.
Qed.
