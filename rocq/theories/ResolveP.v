(** Lemmas about [resolve_name]. *)
From Verif Require Import Base BaseP NameM NameSpec NameP RRM ValM RecSpec ValSpec ResolveSpec.
From Coq Require Import Lia Arith.
Local Open Scope N_scope.

Lemma first_of_flat_map {A B} (P : A -> Prop) (f : A -> list B) (l : list A) :
  (forall x, P x -> f x <> []) -> (forall x, ~ P x -> f x = []) -> (forall x, P x \/ ~ P x) ->
  match flat_map f l with
  | [] => forall x, In x l -> ~ P x
  | b :: _ => exists x t, FirstOf P l x /\ f x = b :: t
  end.
Proof.
  intros H1 H2 D. induction l as [|a l IH]; cbn [flat_map]; [intros x []|].
  destruct (D a) as [Ha|Ha].
  - specialize (H1 a Ha). destruct (f a) as [|b t] eqn:E; [congruence|]. cbn [app]. exists a, t. split; [|exact E].
    exists [], l. auto.
  - rewrite (H2 a Ha). cbn [app]. destruct (flat_map f l).
    + intros x [<-|I]; auto.
    + destruct IH as (x & t & (p & q & -> & Px & F) & E). exists x, t. split; [|exact E].
      exists (a :: p), q. split; [reflexivity|]. split; [exact Px|]. constructor; auto.
Qed.

Lemma first_of_unique {A} (P : A -> Prop) l x y : FirstOf P l x -> FirstOf P l y -> x = y.
Proof.
  intros (a & b & -> & Px & Fa) (a' & b' & E & Py & Fa').
  revert a' E Fa'. induction a as [|z a IH]; intros [|z' a'] E Fa'; cbn in E.
  - congruence.
  - injection E as <- E. inversion Fa'; subst. contradiction.
  - injection E as -> E. inversion Fa; subst. contradiction.
  - injection E as -> E. inversion Fa; inversion Fa'; subst. eauto.
Qed.
Lemma first_of_in {A} (P : A -> Prop) l x : FirstOf P l x -> In x l /\ P x.
Proof. intros (a & b & -> & Px & _). split; [apply in_or_app; right; left; reflexivity|exact Px]. Qed.

Lemma find_cname_spec rrs n :
  match find_cname rrs n with
  | Some c => FirstOf (cname_at n) rrs (RR_CName c)
  | None => ~ exists r, In r rrs /\ cname_at n r
  end.
Proof.
  unfold find_cname.
  match goal with |- context [flat_map ?f rrs] => pose proof (first_of_flat_map (cname_at n) f rrs) as H end.
  destruct (flat_map _ rrs) as [|c t].
  - intros (r & I & C). refine (H _ _ _ r I C); clear.
    + intros x (c & -> & <-). rewrite bytes_eqb_refl. discriminate.
    + intros x C. destruct x; try reflexivity. destruct (bytes_eqb _ n) eqn:E; [|reflexivity].
      apply bytes_eqb_eq in E. exfalso. apply C. eexists; eauto.
    + intros x. destruct x as [| | | | |c'| | | | | |]; try (right; intros (c'' & E & _); discriminate).
      destruct (list_eq_dec N.eq_dec (cn_name c') n); [left; eexists; eauto|right; intros (c'' & E & E'); congruence].
  - destruct H as (x & t' & F & E); clear t.
    + intros x (c' & -> & <-). rewrite bytes_eqb_refl. discriminate.
    + intros x C. destruct x; try reflexivity. destruct (bytes_eqb _ n) eqn:E; [|reflexivity].
      apply bytes_eqb_eq in E. exfalso. apply C. eexists; eauto.
    + intros x. destruct x as [| | | | |c'| | | | | |]; try (right; intros (c'' & E & _); discriminate).
      destruct (list_eq_dec N.eq_dec (cn_name c') n); [left; eexists; eauto|right; intros (c'' & E & E'); congruence].
    + destruct x; try discriminate E. destruct (bytes_eqb _ n); [|discriminate E]. injection E as -> _. exact F.
Qed.

Lemma find_dname_spec rrs n :
  match find_dname rrs n with
  | Some d => FirstOf (dname_for redirect_text n) rrs (RR_DName d)
  | None => ~ exists r, In r rrs /\ dname_for redirect_text n r
  end.
Proof.
  unfold find_dname.
  match goal with |- context [flat_map ?f rrs] => pose proof (first_of_flat_map (dname_for redirect_text n) f rrs) as H;
    assert (H1 : forall x, dname_for redirect_text n x -> f x <> []);
    [|assert (H2 : forall x, ~ dname_for redirect_text n x -> f x = []);
    [|assert (H3 : forall x, dname_for redirect_text n x \/ ~ dname_for redirect_text n x)]] end.
  - intros x (d & t & -> & p & E & _). replace (ends_with n (dn_name d)) with true; [discriminate|].
    symmetry. apply ends_with_spec. exists p. exact E.
  - intros x C. destruct x; try reflexivity. destruct (ends_with n _) eqn:E; [|reflexivity].
    apply ends_with_spec in E. destruct E as [p E]. exfalso. apply C. do 2 eexists. split; [reflexivity|]. exists p. eauto.
  - intros x. destruct x as [| | | | | |d| | | | |]; try (right; intros (d & t & E & _); discriminate).
    destruct (ends_with n (dn_name d)) eqn:E.
    + apply ends_with_spec in E. destruct E as [p E]. left. do 2 eexists. split; [reflexivity|]. exists p. eauto.
    + right. intros (d' & t & Ed & p & En & _). injection Ed as <-.
      enough (ends_with n (dn_name d) = true) by congruence. apply ends_with_spec. eauto.
  - specialize (H H1 H2 H3). destruct (flat_map _ rrs) as [|d t].
    + intros (r & I & C). exact (H r I C).
    + destruct H as (x & t' & F & E). destruct x; try discriminate E. destruct (ends_with n _); [|discriminate E].
      injection E as -> _. exact F.
Qed.

Lemma strip_suffix_spec n p suf : n = p ++ suf -> strip_suffix n suf = Some p.
Proof.
  intros ->. unfold strip_suffix. replace (ends_with (p ++ suf) suf) with true.
  - f_equal. unfold takeN, len. rewrite app_length. replace (N.to_nat _) with (length p) by lia.
    rewrite firstn_app, Nat.sub_diag, firstn_all, firstn_O, app_nil_r. reflexivity.
  - symmetry. apply ends_with_spec. eauto.
Qed.

Lemma filter_at_name rrs n : filter (fun r => bytes_eqb (rr_name r) n) rrs = at_name rrs n.
Proof.
  unfold at_name. apply filter_ext. intros r. destruct (list_eq_dec N.eq_dec (rr_name r) n) as [->|Hn].
  - apply bytes_eqb_refl.
  - apply bytes_eqb_neq. exact Hn.
Qed.

Lemma app_inv_len {A} (a b c d : list A) : length a = length c -> a ++ b = c ++ d -> a = c /\ b = d.
Proof.
  revert c. induction a as [|x a IH]; intros [|y c] L E; cbn in *; try discriminate; [auto|].
  injection E as -> E. injection L as L. destruct (IH c L E). subst. auto.
Qed.
Lemma lower_app_fixed a b : lower (a ++ b) = a ++ b -> lower a = a /\ lower b = b.
Proof. unfold lower. rewrite map_app. apply app_inv_len. apply map_length. Qed.

Section Resolve.
  Variable rrs : list RR.
  Hypothesis Hheld : Forall Held rrs.
  Notation alias := (Alias redirect_text rrs).
  Notation aliases := (Aliases redirect_text rrs).
  Notation terminal := (Terminal redirect_text rrs).
  Notation too_long := (AliasTooLong redirect_text rrs).

  Lemma dname_valid n d p : In (RR_DName d) rrs -> valid_name n -> n = p ++ dn_name d -> lower (p ++ dn_delegation d) = p ++ dn_delegation d.
  Proof.
    intros I V E. rewrite Forall_forall in Hheld. apply Hheld in I. destruct I as [_ I]. apply valid_name_spec in V, I.
    destruct V as [_ V], I as [_ I]. subst n. apply lower_app_fixed in V. unfold lower in *. rewrite map_app.
    destruct V as [-> _]. rewrite I. reflexivity.
  Qed.
  Lemma alias_valid n m : alias n m -> valid_name n -> valid_name m.
  Proof.
    intros A V. inversion A as [n' c F|n' d t _ F (p & En & Et) Ac]; subst m n'.
    - apply first_of_in in F. destruct F as [F _]. rewrite Forall_forall in Hheld. apply Hheld in F. apply F.
    - apply first_of_in in F. destruct F as [F _]. apply valid_name_spec. split; [exact Ac|]. subst t. eapply dname_valid; eauto.
  Qed.
  Lemma alias_unique n m m' : alias n m -> alias n m' -> m = m'.
  Proof.
    intros A A'. inversion A as [n' c F|n' d t C F (p & En & Et) Ac]; inversion A' as [n'' c' F'|n'' d' t' C' F' (p' & En' & Et') Ac']; subst n' n'' m m'.
    - pose proof (first_of_unique _ _ _ _ F F'). congruence.
    - exfalso. apply C'. apply first_of_in in F. eauto.
    - exfalso. apply C. apply first_of_in in F'. eauto.
    - pose proof (first_of_unique _ _ _ _ F F') as E. injection E as <-. rewrite En' in En. apply app_inv_tail in En. subst. reflexivity.
  Qed.

  (** One iteration of the loop. *)
  Lemma resolve_step n f : valid_name n ->
    (exists m, alias n m /\ resolve_name rrs (S f) n = resolve_name rrs f m) \/
    (too_long n /\ resolve_name rrs (S f) n = Ok []) \/
    (terminal n /\ resolve_name rrs (S f) n = Ok (at_name rrs n)).
  Proof.
    intros V. cbn [resolve_name]. pose proof (find_cname_spec rrs n) as C. destruct (find_cname rrs n) as [c|].
    { left. exists (cn_canonical c). split; [constructor; exact C|reflexivity]. }
    pose proof (find_dname_spec rrs n) as D. destruct (find_dname rrs n) as [d|].
    - pose proof (first_of_in _ _ _ D) as (I & d' & t & Ed & p & En & Et). injection Ed as <-.
      rewrite (strip_suffix_spec _ _ _ En). pose proof (dname_valid _ _ _ I V En) as L.
      destruct (name_try_from (p ++ dn_delegation d)) as [m|] eqn:E.
      + apply name_try_from_spec in E. destruct E as [Ac ->]. rewrite L. left. eexists. split; [|reflexivity].
        eapply Alias_dname; eauto. exists p. auto.
      + right. left. split; [|reflexivity]. split; [exact C|]. exists d, (p ++ dn_delegation d). split; [exact D|].
        split; [exists p; auto|]. intros Ac. assert (name_try_from (p ++ dn_delegation d) = Some (lower (p ++ dn_delegation d))).
        { apply name_try_from_spec. auto. } congruence.
    - right. right. rewrite filter_at_name. split; [|reflexivity]. intros r I. split; intros X; [apply C|apply D]; eauto.
  Qed.

  Lemma not_two n : valid_name n ->
    ((exists m, alias n m) -> ~ too_long n /\ ~ terminal n) /\ (too_long n -> ~ terminal n).
  Proof.
    intros V. split.
    - intros [m A]. inversion A as [n' c F|n' d t C F R Ac]; subst n' m.
      + apply first_of_in in F. destruct F as [I F]. split; [intros [C _]; apply C; eauto|intros T; apply T in I; tauto].
      + split.
        * intros (_ & d' & t' & F' & R' & NA). pose proof (first_of_unique _ _ _ _ F F') as E. injection E as <-.
          destruct R as (p & En & ->), R' as (p' & En' & ->). rewrite En' in En. apply app_inv_tail in En. subst. auto.
        * intros T. apply first_of_in in F. destruct F as [I F]. apply T in I. tauto.
    - intros (_ & d & t & F & _) T. apply first_of_in in F. destruct F as [I F]. apply T in I. tauto.
  Qed.

  (** C33. *)
  Lemma resolve_spec fuel n l : valid_name n ->
    (resolve_name rrs fuel n = Ok l <-> exists k, (k < fuel)%nat /\ Resolves redirect_text rrs k n l).
  Proof.
    revert n. induction fuel as [|f IH]; intros n V.
    { split; [discriminate|]. intros (k & L & _). lia. }
    destruct (not_two n V) as [N1 N2].
    destruct (resolve_step n f V) as [(m & A & ->)|[(T & ->)|(T & ->)]].
    - rewrite (IH m (alias_valid _ _ A V)). split.
      + intros (k & L & e & As & R). exists (S k). split; [lia|]. exists e. split; [econstructor; eauto|exact R].
      + intros (k & L & e & As & R). destruct As as [n|k n m' e A' As].
        * exfalso. destruct N1 as [Na Nb]; [eauto|]. destruct R as [[T _]|[T _]]; auto.
        * pose proof (alias_unique _ _ _ A A'). subst m'. exists k. split; [lia|]. exists e. auto.
    - split.
      + intros E. injection E as <-. exists 0%nat. split; [lia|]. exists n. split; [constructor|]. auto.
      + intros (k & L & e & As & R). destruct As as [n|k n m' e A' As].
        * destruct R as [[T' _]|[_ ->]]; [exfalso; apply (N2 T T')|reflexivity].
        * exfalso. destruct N1 as [Na Nb]; eauto.
    - split.
      + intros E. injection E as <-. exists 0%nat. split; [lia|]. exists n. split; [constructor|]. auto.
      + intros (k & L & e & As & R). destruct As as [n|k n m' e A' As].
        * destruct R as [[_ ->]|[T' _]]; [reflexivity|exfalso; apply (N2 T' T)].
        * exfalso. destruct N1 as [Na Nb]; eauto.
  Qed.
  Lemma resolve_outcome fuel n : valid_name n ->
    (exists l, resolve_name rrs fuel n = Ok l) \/ resolve_name rrs fuel n = Loop.
  Proof.
    revert n. induction fuel as [|f IH]; intros n V; [right; reflexivity|].
    destruct (resolve_step n f V) as [(m & A & ->)|[(T & ->)|(T & ->)]]; eauto. apply IH. eapply alias_valid; eauto.
  Qed.
  Lemma resolve_loop fuel n : valid_name n -> (resolve_name rrs fuel n = Loop <-> exists m, aliases fuel n m).
  Proof.
    revert n. induction fuel as [|f IH]; intros n V.
    { split; [|reflexivity]. intros _. exists n. constructor. }
    destruct (not_two n V) as [N1 N2].
    destruct (resolve_step n f V) as [(m & A & ->)|[(T & ->)|(T & ->)]].
    - rewrite (IH m (alias_valid _ _ A V)). split; intros [e As].
      + exists e. econstructor; eauto.
      + inversion As as [|k n' m' e' A' As']; subst. pose proof (alias_unique _ _ _ A A'). subst m'. eauto.
    - split; [discriminate|]. intros [e As]. inversion As as [|k n' m' e' A' As']; subst. exfalso. destruct N1; eauto.
    - split; [discriminate|]. intros [e As]. inversion As as [|k n' m' e' A' As']; subst. exfalso. destruct N1; eauto.
  Qed.

  (** ** Termination *)
  Lemma aliases_app a b n m e : aliases a n m -> aliases b m e -> aliases (a + b) n e.
  Proof. intros A B. induction A; cbn; [exact B|]. econstructor; eauto. Qed.
  Lemma aliases_valid k n m : aliases k n m -> valid_name n -> valid_name m.
  Proof. intros A. induction A; intros V; [exact V|]. eauto using alias_valid. Qed.

  Lemma aliases_prefix k a n e : aliases k n e -> (a <= k)%nat -> exists m, aliases a n m /\ aliases (k - a) m e.
  Proof.
    intros A. revert a. induction A as [n|k n m e S A IH]; intros a L.
    - replace a with 0%nat by lia. exists n. split; constructor.
    - destruct a as [|a]; [exists n; split; [constructor|]; rewrite Nat.sub_0_r; econstructor; eauto|].
      destruct (IH a) as (x & A1 & A2); [lia|]. exists x. split; [econstructor; eauto|exact A2].
  Qed.

  (** The names visited by [k] redirections. *)
  Lemma visited k n e : aliases k n e -> exists ns, length ns = S k /\ (forall x, In x ns -> exists a, (a <= k)%nat /\ aliases a n x) /\
    (forall i x, nth_error ns i = Some x -> aliases i n x).
  Proof.
    intros A. induction A as [n|k n m e S A IH].
    - exists [n]. split; [reflexivity|]. split; [intros x [<-|[]]; exists 0%nat; split; [lia|constructor]|].
      intros [|[|i]] x E; try discriminate. injection E as <-. constructor.
    - destruct IH as (ns & L & H1 & H2). exists (n :: ns). split; [cbn; lia|]. split.
      + intros x [<-|I]; [exists 0%nat; split; [lia|constructor]|]. apply H1 in I. destruct I as (a & La & Aa).
        exists (Datatypes.S a). split; [lia|]. econstructor; eauto.
      + intros [|i] x E; [injection E as <-; constructor|]. cbn in E. econstructor; eauto.
  Qed.

  Lemma aliases_unique k n m m' : aliases k n m -> aliases k n m' -> m = m'.
  Proof.
    intros A. revert m'. induction A as [n|k n x m S A IH]; intros m' B; inversion B; subst; [reflexivity|].
    apply IH. pose proof (alias_unique _ _ _ S H0). subst. assumption.
  Qed.

  (** A finite list holding every valid name. *)
  Fixpoint strings (n : nat) : list (list N) :=
    match n with
    | O => [[]]
    | S n => [] :: flat_map (fun s => map (fun c => N.of_nat c :: s) (seq 0 256)) (strings n)
    end.
  Lemma flat_map_len {A B} (f : A -> list B) k l : (forall x, length (f x) = k) -> length (flat_map f l) = (length l * k)%nat.
  Proof. intros H. induction l as [|x l IH]; [reflexivity|]. cbn [flat_map length]. rewrite app_length, IH, H. lia. Qed.
  Lemma in_strings n s : (length s <= n)%nat -> Forall (fun c => c < 256) s -> In s (strings n).
  Proof.
    revert s. induction n as [|n IH]; intros [|c s] L F; cbn [length] in L; [left; reflexivity|lia|left; reflexivity|].
    inversion F; subst. right. apply in_flat_map. exists s. split; [apply IH; [lia|assumption]|].
    apply in_map_iff. exists (N.to_nat c). split; [f_equal; lia|]. apply in_seq. lia.
  Qed.
  Lemma strings_length n : (length (strings n) <= 257 ^ n)%nat.
  Proof.
    induction n as [|n IH]; [cbn; lia|]. cbn [strings length]. 
    rewrite (flat_map_len (fun s => map (fun c => N.of_nat c :: s) (seq 0 256)) 256). 2: { intros. rewrite map_length, seq_length. reflexivity. }
    rewrite Nat.pow_succ_r'. assert (1 <= 257 ^ n)%nat by (apply Nat.neq_0_lt_0, Nat.pow_nonzero; lia). nia.
  Qed.
  Lemma valid_in_strings n : valid_name n -> In n (strings 255).
  Proof.
    intros V. apply valid_name_spec in V. destruct V as [(ls & _ & -> & F & L) _]. apply in_strings; [exact L|].
    apply forall_dots. split; [|lia]. eapply Forall_impl; [|exact F]. intros l [_ H]. eapply Forall_impl; [|exact H].
    intros c [H1 _]. lia.
  Qed.

  Lemma resolve_terminates n bound : valid_name n -> (257 ^ 255 <= bound)%nat ->
    (resolve_name rrs (S bound) n <> Loop <-> forall k a m, aliases k n m -> ~ aliases (S a) m m).
  Proof.
    intros V B. split.
    - intros NL k a m A C. apply NL. apply resolve_loop; [exact V|].
      assert (R : forall j, aliases (j * S a) m m).
      { induction j; [constructor|]. change (S j * S a)%nat with (S a + j * S a)%nat. eapply aliases_app; eauto. }
      pose proof (aliases_app _ _ _ _ _ A (R (S bound))) as A'.
      destruct (aliases_prefix _ (S bound) _ _ A') as (x & X & _); [nia|]. eauto.
    - intros NC L. apply resolve_loop in L; [|exact V]. destruct L as [e A].
      destruct (visited _ _ _ A) as (ns & Ln & H1 & H2).
      assert (ND : NoDup ns).
      { apply NoDup_nth_error. intros i j Li E.
        assert (forall i j, (i < j)%nat -> (i < length ns)%nat -> nth_error ns i = nth_error ns j -> False) as W.
        { clear i j Li E. intros i j Lt Li E. destruct (nth_error ns i) as [x|] eqn:Ei; [|apply nth_error_None in Ei; lia].
          pose proof (H2 _ _ Ei) as Ai. symmetry in E. pose proof (H2 _ _ E) as Aj.
          destruct (aliases_prefix _ i _ _ Aj) as (y & Ay & Ayx); [lia|]. pose proof (aliases_unique _ _ _ _ Ai Ay). subst y.
          apply (NC i (j - i - 1)%nat x Ai). replace (S (j - i - 1)) with (j - i)%nat by lia. exact Ayx. }
        destruct (Nat.lt_trichotomy i j) as [Lt|[->|Gt]]; [exfalso; eauto|reflexivity|].
        exfalso. apply (W j i Gt); [|symmetry; exact E].
        destruct (nth_error ns i) eqn:Ei; [|apply nth_error_None in Ei; lia]. apply nth_error_Some. congruence. }
      assert (I : incl ns (strings 255)).
      { intros x Ix. apply valid_in_strings. apply H1 in Ix. destruct Ix as (a & _ & Aa). eapply aliases_valid; eauto. }
      pose proof (NoDup_incl_length ND I). pose proof (strings_length 255). lia.
  Qed.
End Resolve.

(** ** When the textual and the RFC substitution agree *)
Lemma first_of_iff {A} (P Q : A -> Prop) l x : (forall y, In y l -> (P y <-> Q y)) -> FirstOf P l x -> FirstOf Q l x.
Proof.
  intros H (a & b & -> & Px & F). exists a, b. split; [reflexivity|]. split.
  - apply H; [apply in_or_app; right; left; reflexivity|exact Px].
  - rewrite Forall_forall in *. intros y I Qy. apply (F y I). apply H; [apply in_or_app; left; exact I|exact Qy].
Qed.

Section Agree.
  Variable rrs : list RR.
  Variables R1 R2 : list N -> list N -> list N -> list N -> Prop.
  Definition agree_at (n : list N) : Prop := forall d t, In (RR_DName d) rrs ->
    (R1 n (dn_name d) (dn_delegation d) t <-> R2 n (dn_name d) (dn_delegation d) t).

  Lemma dname_for_agree n r : agree_at n -> In r rrs -> (dname_for R1 n r <-> dname_for R2 n r).
  Proof. intros H I. split; intros (d & t & -> & R); exists d, t; (split; [reflexivity|]); apply H; auto. Qed.
  Lemma alias_agree n m : agree_at n -> Alias R1 rrs n m -> Alias R2 rrs n m.
  Proof.
    intros H A. inversion A as [n' c F|n' d t C F R Ac]; subst n' m; [constructor; exact F|].
    apply (Alias_dname _ _ _ d t); [exact C| |apply H; [apply first_of_in in F; tauto|exact R]|exact Ac].
    eapply first_of_iff; [|exact F]. intros y I. apply dname_for_agree; auto.
  Qed.
  Lemma terminal_agree n : agree_at n -> Terminal R1 rrs n -> Terminal R2 rrs n.
  Proof. intros H T r I. destruct (T r I) as [T1 T2]. split; [exact T1|]. intros D. apply T2. apply dname_for_agree; auto. Qed.
  Lemma too_long_agree n : agree_at n -> AliasTooLong R1 rrs n -> AliasTooLong R2 rrs n.
  Proof.
    intros H (C & d & t & F & R & NA). split; [exact C|]. exists d, t. split; [|split; [apply H; [apply first_of_in in F; tauto|exact R]|exact NA]].
    eapply first_of_iff; [|exact F]. intros y I. apply dname_for_agree; auto.
  Qed.
  Lemma resolves_agree k n l : (forall a m, (a <= k)%nat -> Aliases R1 rrs a n m -> agree_at m) -> Resolves R1 rrs k n l -> Resolves R2 rrs k n l.
  Proof.
    intros H (m & A & T). exists m. split.
    - clear T. induction A as [n|k n x m S A IH]; [constructor|]. econstructor.
      + apply alias_agree; [|exact S]. apply (H 0%nat); [lia|constructor].
      + apply IH. intros a y L B. apply (H (Datatypes.S a)); [lia|]. econstructor; eauto.
    - specialize (H k m (Nat.le_refl _) A). destruct T as [[T ->]|[T ->]]; [left|right]; split; auto using terminal_agree, too_long_agree.
  Qed.
End Agree.

Section Aligned.
  Variable rrs : list RR.
  Hypothesis Hwf : Forall (typed_rr proper_name) rrs.
  Hypothesis Hnonroot : forall d, In (RR_DName d) rrs -> dn_name d <> [46] /\ dn_delegation d <> [46].

  Lemma proper_labels_ok ls : Forall (fun l => l <> [] /\ label_ok l) ls -> Forall label_ok ls.
  Proof. intros F. eapply Forall_impl; [|exact F]. intros l [_ H]. exact H. Qed.
  Lemma proper_nonroot n : proper_name n -> n <> [46] ->
    exists ls, ls <> [] /\ n = dots ls /\ Forall (fun l => l <> [] /\ label_ok l) ls /\ (length n <= 255)%nat /\ lower n = n.
  Proof.
    intros (ls & [F L] & -> & E) NR. exists ls. destruct ls as [|a ls]; [contradiction NR; reflexivity|].
    split; [discriminate|]. cbn [dotted] in *. auto.
  Qed.

  Lemma aligned_agree n : proper_name n ->
    (forall d p, In (RR_DName d) rrs -> n = p ++ dn_name d -> exists q, p = q ++ [46]) -> agree_at rrs redirect_text redirect_labels n.
  Proof.
    intros Pn Al d t I. destruct (Hnonroot d I) as [No Nd].
    assert (Pd : proper_name (dn_name d) /\ proper_name (dn_delegation d)). { rewrite Forall_forall in Hwf. apply (Hwf _ I). }
    destruct Pd as [Po Pd]. destruct (proper_nonroot _ Po No) as (lo & NEo & Eo & Fo & _). destruct (proper_nonroot _ Pd Nd) as (ld & NEd & Ed & Fd & _).
    split.
    - intros (p & En & ->). destruct (Al d p I En) as [q ->].
      assert (Hn : n <> [46]).
      { intros ->. apply (f_equal (@length N)) in En. rewrite Eo in En. rewrite !app_length in En.
        pose proof (dots_length lo). destruct lo as [|x lo]; [contradiction|]. cbn [length] in *. lia. }
      destruct (proper_nonroot _ Pn Hn) as (ln & NEn & En' & Fn & _).
      assert (ln = split_on 46 q ++ lo).
      { apply dots_inj; [apply labels_ok_nodot, proper_labels_ok; exact Fn| |rewrite dots_app, dots_split, <- Eo; congruence].
        apply Forall_app. split; [|apply labels_ok_nodot, proper_labels_ok; exact Fo]. apply split_on_pieces. }
      subst ln. exists (split_on 46 q), lo, ld.
      assert (NEq : split_on 46 q <> []). { intros E. pose proof (dots_split q) as X. rewrite E in X. destruct q; discriminate X. }
      assert (forall b, split_on 46 q ++ b <> []). { intros b E. apply app_eq_nil in E. tauto. }
      split; [exact NEq|].
      unfold dotted. split; [destruct (split_on 46 q ++ lo) eqn:E; [exfalso; eapply H; eauto|exact En']|].
      split; [destruct lo; [contradiction|exact Eo]|]. split; [destruct ld; [contradiction|exact Ed]|].
      split; [destruct (split_on 46 q ++ ld) eqn:E; [exfalso; eapply H; eauto|]; rewrite <- E, dots_app, dots_split, Ed; reflexivity|].
      rewrite !Forall_app in *. tauto.
    - intros (pre & ls & ls' & NE & En & Eo' & Ed' & -> & F).
      assert (ls <> []) by (intros ->; apply No; exact Eo'). assert (ls' <> []) by (intros ->; apply Nd; exact Ed').
      assert (D : forall l, l <> [] -> dotted l = dots l) by (intros [|] ?; [contradiction|reflexivity]).
      assert (NA : forall b, pre ++ b <> []). { intros b E. apply app_eq_nil in E. tauto. }
      exists (dots pre). rewrite En, Eo', Ed'. rewrite !D, !dots_app by auto. auto.
  Qed.

  Lemma aligned_alias n m : proper_name n -> agree_at rrs redirect_text redirect_labels n -> Alias redirect_text rrs n m -> proper_name m.
  Proof.
    intros Pn Ag A. inversion A as [n' c F|n' d t C F R Ac]; subst n' m.
    - apply first_of_in in F. destruct F as [F _]. rewrite Forall_forall in Hwf. apply (Hwf _ F).
    - apply first_of_in in F. destruct F as [I _]. pose proof R as (p & En & Et). apply Ag in R; [|exact I].
      destruct R as (pre & ls & ls' & NE & En' & Eo' & Ed' & E & F). exists (pre ++ ls').
      split; [split; [rewrite !Forall_app in *; tauto|]|split; [exact E|]].
      + rewrite <- E. destruct Ac as (? & _ & _ & _ & L). exact L.
      + rewrite Et. assert (V : lower n = n) by (destruct Pn as (? & _ & _ & V); exact V). rewrite En in V. apply lower_app_fixed in V.
        rewrite Forall_forall in Hwf. destruct (Hwf _ I) as [_ (? & _ & _ & V')]. unfold lower in *. rewrite map_app, (proj1 V), V'. reflexivity.
  Qed.

  Lemma resolve_aligned fuel n l : proper_name n ->
    (forall k m, Aliases redirect_text rrs k n m -> forall d p, In (RR_DName d) rrs -> m = p ++ dn_name d -> exists q, p = q ++ [46]) ->
    resolve_name rrs fuel n = Ok l -> exists k, Resolves redirect_labels rrs k n l.
  Proof.
    intros Pn Al E.
    assert (PV : forall x, proper_name x -> name_try_from x = Some x).
    { intros x (ls & [F L] & -> & Lo). apply valid_name_spec. split; [|exact Lo].
      destruct ls as [|a ls]; [exists [[]]; split; [discriminate|]; split; [reflexivity|]; split; [|cbn; lia]|
        exists (a :: ls); split; [discriminate|]; split; [reflexivity|]; split; [apply proper_labels_ok; exact F|exact L]].
      constructor; [split; [cbn; lia|constructor]|constructor]. }
    assert (Hh : Forall Held rrs).
    { eapply Forall_impl; [|exact Hwf]. intros r. unfold Held. destruct r; cbn [typed_rr]; intuition. }
    apply (resolve_spec rrs Hh) in E; [|apply PV; exact Pn]. destruct E as (k & _ & E). exists k.
    eapply resolves_agree; [|exact E]. intros a m _ A.
    assert (Pm : proper_name m).
    { clear E. induction A as [n|a n x m S A IH]; [exact Pn|]. apply IH.
      - eapply aligned_alias; eauto. apply aligned_agree; [exact Pn|]. apply (Al 0%nat). constructor.
      - intros j y B. apply (Al (Datatypes.S j)). econstructor; eauto. }
    apply aligned_agree; [exact Pm|]. eapply Al; eauto.
  Qed.
End Aligned.
