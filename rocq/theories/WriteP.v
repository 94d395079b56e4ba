(** Proofs for Prop_Write. *)
From Verif Require Import Base BaseP NameSpec TextSpec JsonM QueryM HttpM HttpSpec HttpP WriteM WriteSpec.
From Coq Require Import String Lia.
Local Open Scope N_scope.

Lemma write_all_spec buf evs sent r evs' : write_all buf evs = (sent, r, evs') ->
  Prefix sent buf /\ (r = WDone -> sent = buf) /\ (exists used, evs = used ++ evs' /\ (r = WError -> exists u ev, used = u ++ [ev] /\ Fails ev) /\ (r = WDone -> Forall (fun ev => ~ Fails ev) used)) /\
  (r = WWaits -> evs' = [] /\ (List.length evs < List.length buf)%nat).
Proof.
  revert buf sent r evs'. induction evs as [| ev evs IH]; intros buf sent r evs' E.
  - destruct buf as [| x b]; cbn in E; injection E as <- <- <-.
    + split; [exists []; reflexivity |]. split; [auto |]. split; [exists []; split; [reflexivity |]; split; [discriminate | intros; apply Forall_nil] | discriminate].
    + split; [exists (x :: b); reflexivity |]. split; [discriminate |]. split; [exists []; split; [reflexivity |]; split; discriminate |]. intros _. split; [reflexivity | cbn; lia].
  - destruct buf as [| x b].
    + cbn in E. injection E as <- <- <-.
      split; [exists []; reflexivity |]. split; [auto |]. split; [exists []; split; [reflexivity |]; split; [discriminate | intros; apply Forall_nil] | discriminate].
    + destruct ev as [n |].
      * cbn [write_all] in E. destruct (N.eqb_spec n 0) as [-> | Hn].
        { injection E as <- <- <-. split; [exists (x :: b); reflexivity |]. split; [discriminate |]. split; [| discriminate].
          exists [WTakes 0]. split; [reflexivity |]. split; [| discriminate]. intros _. exists [], (WTakes 0). split; [reflexivity | right; reflexivity]. }
        destruct (write_all (dropN n (x :: b)) evs) as [[s r0] t] eqn:W. apply pair_equal_spec in E as [E <-]. apply pair_equal_spec in E as [<- <-].
        destruct (IH _ _ _ _ W) as ((y & P) & D & (used & U & UE & UD) & L). split.
        { exists y. rewrite <- app_assoc, <- P. symmetry. apply takeN_dropN. }
        split; [intros ->; rewrite (D eq_refl); apply takeN_dropN |]. split.
        { exists (WTakes n :: used). split; [cbn; rewrite <- U; reflexivity |]. split.
          - intros R. destruct (UE R) as (u & ev & -> & F). exists (WTakes n :: u), ev. split; [reflexivity | exact F].
          - intros R. apply Forall_cons; [intros [C | C]; [discriminate C | injection C as C; contradiction] | apply UD, R]. }
        intros R. destruct (L R) as [-> L']. split; [reflexivity |]. unfold dropN in L'. rewrite skipn_length in L'. cbn [List.length] in *. lia.
      * cbn [write_all] in E. injection E as <- <- <-. split; [exists (x :: b); reflexivity |]. split; [discriminate |]. split; [| discriminate].
        exists [WFails]. split; [reflexivity |]. split; [| discriminate]. intros _. exists [], WFails. split; [reflexivity | left; reflexivity].
Qed.
Lemma write_all_failed buf evs sent r evs' : Forall Fails evs -> write_all buf evs = (sent, r, evs') -> sent = [].
Proof.
  intros F E. destruct buf as [| x b]; [destruct evs; cbn in E; injection E as <- _ _; reflexivity |]. destruct F as [| ev evs [-> | ->] _]; cbn in E; injection E as <- _ _; reflexivity.
Qed.

Lemma render_header p ttl : render (Proof p ttl) = proof_header p ttl ++ p.
Proof. unfold render, proof_header. rewrite <- !app_assoc. reflexivity. Qed.
Lemma prefix_app a b c : Prefix a b -> Prefix a (b ++ c).
Proof. intros (x & ->). exists (x ++ c). rewrite app_assoc. reflexivity. Qed.
Lemma prefix_more a b c : Prefix a b -> Prefix (c ++ a) (c ++ b).
Proof. intros (x & ->). exists x. rewrite app_assoc. reflexivity. Qed.

Lemma reply_prefix r evs : StaysFailed evs -> Prefix (fst (write_reply r evs)) (render r).
Proof.
  intros S. destruct r as [st b | p ttl]; cbn [write_reply].
  - destruct (write_all (render (Plain st b)) evs) as [[s r] t] eqn:W. destruct (write_all_spec _ _ _ _ _ W) as (P & _). destruct r; exact P.
  - destruct (write_all (proof_header p ttl) evs) as [[s r] t] eqn:W. destruct (write_all_spec _ _ _ _ _ W) as (P & D & (used & U & UE & _) & _).
    rewrite render_header. destruct r.
    + specialize (D eq_refl). subst s. destruct (write_all p t) as [[s' r'] t'] eqn:W'. destruct (write_all_spec _ _ _ _ _ W') as (P' & _).
      destruct r'; apply prefix_more, P'.
    + destruct (UE eq_refl) as (u & ev & -> & F). rewrite <- app_assoc in U. pose proof (S _ _ _ U F) as A.
      destruct (write_all p t) as [[s' r'] t'] eqn:W'. apply (write_all_failed _ _ _ _ _ A) in W'. subst s'. rewrite app_nil_r. destruct r'; apply prefix_app, P.
    + apply prefix_app, P.
Qed.

Lemma reply_whole r evs : Forall (fun ev => ~ Fails ev) evs ->
  Prefix (fst (write_reply r evs)) (render r) /\ (snd (write_reply r evs) <> None -> fst (write_reply r evs) = render r) /\
  ((List.length (render r) <= List.length evs)%nat -> snd (write_reply r evs) <> None).
Proof.
  intros A. assert (NE : forall u ev x, evs = (u ++ [ev]) ++ x -> Fails ev -> False).
  { intros u ev x E F. rewrite E in A. apply Forall_app in A as [A _]. apply Forall_app in A as [_ A]. inversion A. contradiction. }
  split; [apply reply_prefix; intros u ev x E F; exfalso; apply (NE u ev x); [rewrite <- app_assoc; exact E | exact F] |].
  destruct r as [st b | p ttl]; cbn [write_reply].
  - destruct (write_all (render (Plain st b)) evs) as [[s r] t] eqn:W. destruct (write_all_spec _ _ _ _ _ W) as (_ & D & (used & U & UE & _) & L).
    destruct r; cbn [fst snd].
    + split; [auto | discriminate].
    + destruct (UE eq_refl) as (u & ev & -> & F). exfalso. exact (NE _ _ _ U F).
    + split; [intros C; contradiction |]. destruct (L eq_refl). lia.
  - destruct (write_all (proof_header p ttl) evs) as [[s r] t] eqn:W. destruct (write_all_spec _ _ _ _ _ W) as (_ & D & (used & U & UE & UD) & L).
    rewrite render_header. rewrite app_length. destruct r; cbn [fst snd].
    + specialize (D eq_refl). subst s.
      assert (LU : (List.length used <= List.length (proof_header p ttl))%nat).
      { clear - W U. assert (K : forall evs buf sent t used, write_all buf evs = (sent, WDone, t) -> evs = used ++ t -> (List.length used <= List.length buf)%nat).
        { clear. induction evs as [| ev evs IH]; intros buf sent t used E U.
          - symmetry in U. apply app_eq_nil in U as [-> _]. cbn. lia.
          - destruct buf as [| x b].
            + cbn in E. injection E as _ <-. assert (H : List.length (ev :: evs) = (List.length used + List.length (ev :: evs))%nat) by (rewrite U at 1; apply app_length). cbn [List.length] in *. lia.
            + cbn [write_all] in E. destruct ev as [n |]; [| discriminate]. destruct (N.eqb_spec n 0); [discriminate |].
              destruct (write_all (dropN n (x :: b)) evs) as [[s r0] t0] eqn:W. apply pair_equal_spec in E as [E ->]. apply pair_equal_spec in E as [_ ->].
              destruct used as [| u used]; [cbn; lia |]. injection U as _ U. pose proof (IH _ _ _ _ W U) as H. unfold dropN in H. rewrite skipn_length in H. cbn [List.length] in *. lia. }
        exact (K _ _ _ _ _ W U). }
      destruct (write_all p t) as [[s' r'] t'] eqn:W'. destruct (write_all_spec _ _ _ _ _ W') as (_ & D' & (used' & U' & UE' & _) & L').
      destruct r'; cbn [fst snd].
      * split; [intros _; rewrite (D' eq_refl); reflexivity | discriminate].
      * destruct (UE' eq_refl) as (u & ev & -> & F). exfalso. apply (NE (used ++ u) ev t'); [| exact F]. rewrite U, U', !app_assoc. reflexivity.
      * split; [intros C; contradiction |]. destruct (L' eq_refl) as [_ H]. rewrite U, app_length. lia.
    + destruct (UE eq_refl) as (u & ev & -> & F). exfalso. exact (NE _ _ _ U F).
    + split; [intros C; contradiction |]. destruct (L eq_refl). lia.
Qed.

Lemma query_prefix q evs sent r evs' : write_query q evs = (sent, r, evs') -> Prefix sent (send_query q) /\ (r = WDone -> sent = send_query q).
Proof.
  unfold write_query, send_query. destruct (write_all (be16 (as_u16 (len q))) evs) as [[s r0] t] eqn:W. destruct (write_all_spec _ _ _ _ _ W) as (P & D & _).
  destruct r0.
  - specialize (D eq_refl). subst s. destruct (write_all q t) as [[s' r'] t'] eqn:W'. destruct (write_all_spec _ _ _ _ _ W') as (P' & D' & _).
    intros E. apply pair_equal_spec in E as [E <-]. apply pair_equal_spec in E as [<- <-]. split; [apply prefix_more, P' |]. intros R. rewrite (D' R). reflexivity.
  - intros E. apply pair_equal_spec in E as [E <-]. apply pair_equal_spec in E as [<- <-]. split; [apply prefix_app, P | discriminate].
  - intros E. apply pair_equal_spec in E as [E <-]. apply pair_equal_spec in E as [<- <-]. split; [apply prefix_app, P | discriminate].
Qed.
Lemma queries_prefix qs : forall evs sent r evs', write_queries qs evs = (sent, r, evs') -> Prefix sent (flat_map send_query qs) /\ (r = WDone -> sent = flat_map send_query qs).
Proof.
  induction qs as [| q qs IH]; cbn [write_queries flat_map]; intros evs sent r evs' E.
  - apply pair_equal_spec in E as [E <-]. apply pair_equal_spec in E as [<- <-]. split; [exists []; reflexivity | reflexivity].
  - destruct (write_query q evs) as [[s r0] t] eqn:W. destruct (query_prefix _ _ _ _ _ W) as [P D]. destruct r0.
    + specialize (D eq_refl). subst s. destruct (write_queries qs t) as [[s' r'] t'] eqn:W'. destruct (IH _ _ _ _ W') as [P' D'].
      apply pair_equal_spec in E as [E <-]. apply pair_equal_spec in E as [<- <-]. split; [apply prefix_more, P' |]. intros R. rewrite (D' R). reflexivity.
    + apply pair_equal_spec in E as [E <-]. apply pair_equal_spec in E as [<- <-]. split; [apply prefix_app, P | discriminate].
    + apply pair_equal_spec in E as [E <-]. apply pair_equal_spec in E as [<- <-]. split; [apply prefix_app, P | discriminate].
Qed.

Lemma one_length_line a x b a' x' b' : Forall (fun l => ~ length_line l) (a ++ b) -> Forall (fun l => ~ length_line l) (a' ++ b') -> length_line x -> length_line x' -> a ++ [x] ++ b = a' ++ [x'] ++ b' -> x = x'.
Proof.
  revert a'. induction a as [| y a IH]; intros [| y' a'] F F' X X' E; cbn [app] in *.
  - injection E as E _. exact E.
  - injection E as -> _. inversion F'. contradiction.
  - injection E as E _. subst y. inversion F. contradiction.
  - injection E as -> E. inversion F. inversion F'. subst. apply (IH a'); assumption.
Qed.
Lemma cut_noticed msg body p b : Framed msg body -> Prefix p msg -> Framed p b -> p = msg /\ b = body.
Proof.
  assert (L : forall k num before after, Decimal k num -> Forall (fun l => l <> [] /\ printable l) (before ++ after) ->
    Forall (fun l => l <> [] /\ printable l) (before ++ [bs "Content-Length: " ++ num] ++ after)).
  { intros k num before after D F. apply Forall_app in F as [F1 F2]. apply Forall_app. split; [exact F1 |]. constructor; [| exact F2].
    split; [discriminate |]. apply printable_app; [text |]. apply digits_printable, D. }
  intros (x & num & y & E & D & F & G & _) (z & Z) (x' & num' & y' & E' & D' & F' & G' & _).
  assert (H : http_message (x ++ [bs "Content-Length: " ++ num] ++ y) body = http_message (x' ++ [bs "Content-Length: " ++ num'] ++ y') (b ++ z)).
  { rewrite <- E, Z, E'. unfold http_message. rewrite <- !app_assoc. reflexivity. }
  apply message_unique in H as [H1 H2]; [| apply (L _ _ _ _ D F) | apply (L _ _ _ _ D' F')].
  apply one_length_line in H1; [| exact G | exact G' | eexists; reflexivity | eexists; reflexivity]. apply app_inv_head in H1. subst num'.
  destruct D as (_ & _ & D & _), D' as (_ & _ & D' & _). rewrite D in D'. assert (X : List.length body = List.length b) by lia. subst body. rewrite app_length in X.
  destruct z; [| cbn in X; lia]. rewrite app_nil_r in *. split; [rewrite Z; symmetry; reflexivity | reflexivity].
Qed.
Lemma client_gets prove evs r wevs b : serve prove evs = Some r -> StaysFailed wevs -> Framed (fst (write_reply r wevs)) b ->
  fst (write_reply r wevs) = render r /\ b = match r with Plain _ t => bs t | Proof p _ => p end.
Proof. intros S F B. apply (cut_noticed (render r) _ _ _ (serve_framed _ _ _ S) (reply_prefix r wevs F) B). Qed.
