(** Runs of the DNS-over-HTTPS lookup (C65). *)
From Verif Require Import Base BaseP NameSpec NameM NameP WireM WireSpec RRM SerM RecSpec ValSpec ValM CodecSpec QueryM QuerySpec QBufP QueryP QueryP2 QueryP3 QueryP4 JsonM WasmM WasmSpec WasmP DohM DohSpec DohP.
From Coq Require Import String Lia Arith.
Local Open Scope N_scope.

(** ** Queries are octets *)
Lemma wire_labels_bytes ls : Forall label_ok ls -> is_bytes (wire_labels ls).
Proof.
  intros F. induction F as [|l ls [L C] F IH]; [constructor|]. unfold wire_labels in *. cbn [flat_map]. apply Forall_app. split; [|exact IH].
  constructor; [unfold is_u8; lia|]. eapply Forall_impl; [|exact C]. unfold label_char, is_u8. intros c. lia.
Qed.
Lemma query_bytes n t b : t < 65536 -> Query n t b -> is_bytes b.
Proof.
  intros T (ls & (_ & F & _) & ->). unfold wire_name. repeat (apply Forall_app; split).
  all: try (apply wire_labels_bytes; exact F).
  all: unfold u16; repeat (apply Forall_cons; [unfold is_u8; try lia|]); try apply Forall_nil.
  all: try (apply N.div_lt_upper_bound; lia). all: apply N.mod_lt; lia.
Qed.
Lemma handed_bytes dbg b tr b' : Calls dbg b tr b' -> Forall (fun c => is_bytes (fst c)) tr -> Forall (fun q => is_bytes (qb_deref q)) (handed tr).
Proof.
  induction 1 as [b|b tr b1 m r b2 C IH P N1 N2]; intros F; [constructor|]. apply Forall_app in F as [F FM]. inversion_clear FM as [|? ? M _]. cbn [fst] in M.
  rewrite handed_snoc. apply Forall_app. split; [auto|]. destruct r as [qs| | |]; try apply Forall_nil.
  destruct (process_ok _ _ _ _ _ M P) as (items & new & qs' & _ & _ & _ & _ & _ & _ & F2 & ->). destruct (_ <=? 10); [|constructor].
  assert (G : forall kt, In kt (flat_map key_queries new) -> snd kt < 65536).
  { intros kt I. apply in_flat_map in I as (k & _ & I). apply in_map_iff in I as (t & <- & It). cbn [snd]. unfold key_types in It.
    destruct (list_eq_dec _ _ _); cbn in It; destruct It as [<-|It]; try lia; destruct It as [<-|[]]; lia. }
  clear - F2 G. induction F2 as [|kt q l l' [_ Q] F IH]; constructor; [|apply IH; intros; apply G; right; assumption].
  eapply query_bytes; [|exact Q]. apply G. left. reflexivity.
Qed.

(** ** The loop *)
Section Run.
  Variable e : env.
  Variable dbg : bool.
  Variable fuel : nat.
  Variable reparse : bytes -> option bytes.
  Variable trap : bytes.
  Variable fetch : nat -> bytes -> fetched.
  Variable endpoint : bytes.
  Notation send := (send_next_query e dbg fuel reparse trap fetch endpoint).
  Variable w0 : wasm.

  Inductive Ending (n : nat) (evs : list event) (w : wasm) (qs : list (list N)) (r : js_result) : Prop :=
  | End_fuel : List.length qs = n -> r = JNever -> taken evs = qs -> List.length (given evs) = List.length qs -> Ending n evs w qs r
  | End_done : w_queue w = [] -> taken evs = qs -> List.length (given evs) = List.length qs ->
      r = match get_unverified_proof w with Some p => check_proof e dbg fuel reparse p | None => JText (err_text "Failed to build proof") end -> Ending n evs w qs r
  | End_failed qs' q exn : taken evs = qs -> qs = qs' ++ [q] -> List.length (given evs) = List.length qs' ->
      fetch (List.length qs') (doh_url endpoint q) = Failed exn -> r = JText (fetch_error exn) -> Ending n evs w qs r
  | End_trap qs' q m : taken evs = qs -> qs = qs' ++ [q] -> List.length (given evs) = List.length qs' ->
      fetch (List.length qs') (doh_url endpoint q) = Body m -> (forall w', process_query_response dbg w m <> Ok w') -> r = JText (fetch_error trap) -> Ending n evs w qs r.

  Definition Got (qs ms : list (list N)) : Prop := forall i q m, nth_error qs i = Some q -> nth_error ms i = Some m -> fetch i (doh_url endpoint q) = Body m.

  Lemma send_run : forall n evs w r urls, Session dbg w0 evs w -> List.length (given evs) = List.length (taken evs) -> Got (taken evs) (given evs) ->
    send n w 0 (List.length (taken evs)) = (r, urls) ->
    exists evs' w' qs, Session dbg w0 evs' w' /\ urls = map (doh_url endpoint) (skipn (List.length (taken evs)) qs) /\ (exists later, qs = taken evs ++ later) /\
      Got qs (given evs') /\ Ending (List.length (taken evs) + n) evs' w' qs r.
  Proof.
    induction n as [|n IH]; intros evs w r urls S L G H; cbn [send_next_query] in H.
    { injection H as <- <-. exists evs, w, (taken evs). split; [exact S|]. rewrite skipn_all. split; [reflexivity|]. split; [exists []; rewrite app_nil_r; reflexivity|]. split; [exact G|].
      apply End_fuel; auto. }
    destruct (get_next_query w) as [o w1] eqn:GN. destruct o as [query|].
    - assert (S1 : Session dbg w0 (evs ++ [Took (Some query)]) w1) by (eapply Session_take; eassumption).
      assert (T1 : taken (evs ++ [Took (Some query)]) = taken evs ++ [query]) by (rewrite taken_snoc; reflexivity).
      assert (G1 : given (evs ++ [Took (Some query)]) = given evs) by (rewrite given_snoc; cbn; apply app_nil_r).
      assert (GG : Got (taken evs ++ [query]) (given evs)).
      { intros i q m Q M. assert (LT : (i < List.length (given evs))%nat) by (apply nth_error_Some; congruence). rewrite nth_error_app1 in Q by lia. eauto. }
      destruct (fetch (List.length (taken evs)) (doh_url endpoint query)) as [buf|exn] eqn:F.
      + destruct (process_query_response dbg w1 buf) as [w2| | |] eqn:P.
        2,3,4: injection H as <- <-; exists (evs ++ [Took (Some query)]), w1, (taken evs ++ [query]); split; [exact S1|];
          split; [rewrite skipn_app, skipn_all, Nat.sub_diag; reflexivity|]; split; [eauto|]; split; [rewrite G1; exact GG|];
          apply (End_trap _ _ _ _ _ (taken evs) query buf); [exact T1|reflexivity|rewrite G1; exact L|exact F|intros w'; rewrite P; discriminate|reflexivity].
        assert (S2 : Session dbg w0 ((evs ++ [Took (Some query)]) ++ [Gave buf]) w2) by (eapply Session_give; eassumption).
        destruct (send n w2 (0 + 1 - 1) (Datatypes.S (List.length (taken evs)))) as [r' us] eqn:SN. injection H as <- <-.
        set (evs2 := (evs ++ [Took (Some query)]) ++ [Gave buf]) in *.
        assert (T2 : taken evs2 = taken evs ++ [query]) by (unfold evs2; rewrite taken_snoc, T1; cbn; apply app_nil_r).
        assert (G2 : given evs2 = given evs ++ [buf]) by (unfold evs2; rewrite given_snoc, G1; reflexivity).
        destruct (IH evs2 w2 r' us S2) as (evs' & w' & qs & S' & U & (later & Q) & GQ & E).
        * rewrite T2, G2, !app_length. cbn [List.length]. lia.
        * rewrite T2, G2. intros i q m Q M. destruct (Nat.eq_dec i (List.length (taken evs))) as [->|NE].
          -- rewrite nth_error_app2, Nat.sub_diag in Q by lia. rewrite nth_error_app2, <- L, Nat.sub_diag in M by lia. injection Q as <-. injection M as <-. exact F.
          -- assert (LT : (i < List.length (taken evs ++ [query]))%nat) by (apply nth_error_Some; congruence). rewrite app_length in LT. cbn [List.length] in LT.
             rewrite nth_error_app1 in Q by lia. rewrite nth_error_app1 in M by lia. eauto.
        * rewrite T2, app_length. cbn [List.length]. rewrite Nat.add_comm. exact SN.
        * rewrite T2 in *. exists evs', w', qs. split; [exact S'|]. split.
          { rewrite Q, U. rewrite Q. rewrite skipn_app, skipn_all, Nat.sub_diag. rewrite <- !app_assoc, skipn_app, skipn_all, Nat.sub_diag. reflexivity. }
          split; [exists (query :: later); rewrite Q, <- app_assoc; reflexivity|]. split; [exact GQ|].
          rewrite app_length in E. cbn [List.length] in E. replace (List.length (taken evs) + Datatypes.S n)%nat with (List.length (taken evs) + 1 + n)%nat by lia. exact E.
      + injection H as <- <-. exists (evs ++ [Took (Some query)]), w1, (taken evs ++ [query]). split; [exact S1|].
        split; [rewrite skipn_app, skipn_all, Nat.sub_diag; reflexivity|]. split; [eauto|]. split; [rewrite G1; exact GG|].
        apply (End_failed _ _ _ _ _ (taken evs) query exn); auto. rewrite G1. exact L.
    - change (0 =? 0) with true in H. cbv iota in H. unfold get_next_query in GN. destruct (w_queue w) as [|x l] eqn:Q; [|discriminate]. injection GN as <-.
      exists evs, w, (taken evs). split; [exact S|].
      destruct (get_unverified_proof w) as [p|] eqn:U; injection H as <- <-; rewrite skipn_all; (split; [reflexivity|]); (split; [exists []; rewrite app_nil_r; reflexivity|]); (split; [exact G|]);
        apply End_done; auto; rewrite U; reflexivity.
  Qed.
End Run.

(** ** Types *)
Lemma lower_case s w : Forall (fun d => ~ (65 <= d <= 90)) w -> (to_lower_case s = w <-> Forall2 any_case s w).
Proof.
  unfold to_lower_case. revert w. induction s as [|c s IH]; intros w NW; cbn [map].
  - split; [intros <-; constructor | intros F; inversion F; reflexivity].
  - split.
    + intros <-. inversion_clear NW as [|? ? D W]. constructor; [|apply IH; [exact W|reflexivity]]. unfold any_case.
      destruct (N.leb_spec 65 c), (N.leb_spec c 90); cbn [andb] in *; lia.
    + intros F. inversion F as [|? d ? w' A F']; subst. inversion_clear NW as [|? ? D W]. f_equal; [|apply IH; assumption].
      unfold any_case in A. destruct (N.leb_spec 65 c), (N.leb_spec c 90); cbn [andb]; lia.
Qed.
Lemma is_word_spec s w : Forall (fun d => ~ (65 <= d <= 90)) (bs w) -> (is_word s w = true <-> Forall2 any_case s (bs w)).
Proof. intros NW. unfold is_word. rewrite bytes_eqb_eq. apply lower_case. exact NW. Qed.
Lemma no_upper w : forallb (fun d => negb ((65 <=? d) && (d <=? 90))) w = true -> Forall (fun d => ~ (65 <= d <= 90)) w.
Proof. rewrite forallb_forall, Forall_forall. intros H d I. specialize (H d I). destruct (N.leb_spec 65 d), (N.leb_spec d 90); cbn in H; try discriminate; lia. Qed.
Ltac notupper := apply no_upper; reflexivity.
Lemma any_case_fun s w w' : Forall (fun d => ~ (65 <= d <= 90)) w -> Forall (fun d => ~ (65 <= d <= 90)) w' -> Forall2 any_case s w -> Forall2 any_case s w' -> w = w'.
Proof. intros A B F G. apply lower_case in F; [|exact A]. apply lower_case in G; [|exact B]. congruence. Qed.
Lemma type_spec s t : type_number s = Some t <-> TypeName s t.
Proof.
  pose proof (is_word_spec s "txt" ltac:(notupper)) as H1. pose proof (is_word_spec s "tlsa" ltac:(notupper)) as H2.
  pose proof (is_word_spec s "a" ltac:(notupper)) as H3. pose proof (is_word_spec s "aaaa" ltac:(notupper)) as H4.
  unfold type_number, TypeName. split.
  - destruct (is_word s "txt"); [intros E; injection E as <-; exists "txt"%string; split; [cbn; tauto|apply H1; reflexivity]|].
    destruct (is_word s "tlsa"); [intros E; injection E as <-; exists "tlsa"%string; split; [cbn; tauto|apply H2; reflexivity]|].
    destruct (is_word s "a"); [intros E; injection E as <-; exists "a"%string; split; [cbn; tauto|apply H3; reflexivity]|].
    destruct (is_word s "aaaa"); [intros E; injection E as <-; exists "aaaa"%string; split; [cbn; tauto|apply H4; reflexivity]|]. discriminate.
  - intros (w & I & F). cbn [In] in I.
    destruct (is_word s "txt"); [pose proof (proj1 H1 eq_refl)|destruct (is_word s "tlsa"); [pose proof (proj1 H2 eq_refl)|destruct (is_word s "a"); [pose proof (proj1 H3 eq_refl)|
      destruct (is_word s "aaaa"); [pose proof (proj1 H4 eq_refl)|]]]];
    (destruct I as [I|[I|[I|[I|[]]]]]; injection I as <- <-); try reflexivity;
    try (match goal with A : Forall2 any_case s (bs ?a), B : Forall2 any_case s (bs ?b) |- _ => assert (X : bs a = bs b) by (apply (any_case_fun s); [notupper|notupper|exact A|exact B]); vm_compute in X; discriminate X end).
    + discriminate (proj2 H1 F).
    + discriminate (proj2 H2 F).
    + discriminate (proj2 H3 F).
    + discriminate (proj2 H4 F).
Qed.
Lemma type_small s t : TypeName s t -> t < 65536.
Proof. intros (w & I & _). cbn [In] in I. destruct I as [I|[I|[I|[I|[]]]]]; injection I as _ <-; lia. Qed.
