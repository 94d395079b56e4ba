(** What comes out of JSON.parse and JSON.stringify (C72). *)
From Verif Require Import Base BaseP NameSpec NameM NameP WireM RRM SerM RecSpec ValM ValSpec TextSpec TextP JsonM JsonSpec JsonP JsonP2 JsonP3 JsonP4 JsonP5 JsonP6 JsonP7 SeenSpec.
From Coq Require Import String Lia.
Local Open Scope N_scope.

Lemma same_num n v v' : n <= 2 ^ 53 -> ShowsNum n v -> Same v v' -> ShowsNum n v'.
Proof. intros B (s & -> & D) H. inversion H; subst. eexists. split; [reflexivity |]. auto. Qed.
Lemma same_nums l vs vs' : Forall (fun n => n <= 2 ^ 53) l -> Forall2 ShowsNum l vs -> Forall2 Same vs vs' -> Forall2 ShowsNum l vs'.
Proof.
  intros B F. revert vs'. induction F as [| n v l vs S F IH]; intros vs' F'; inversion F'; subst; [constructor |]. inversion B; subst. constructor; [eapply same_num; eassumption | auto].
Qed.
Lemma same_bytes l v v' : is_bytes l -> ShowsBytes l v -> Same v v' -> ShowsBytes l v'.
Proof.
  intros B (vs & -> & F) H. inversion H; subst. eexists. split; [reflexivity |]. eapply same_nums; [| exact F | assumption].
  eapply Forall_impl; [| exact B]. unfold is_u8. intros n L. cbn in L. lia.
Qed.
Lemma same_text s v' : Utf8 s -> Same (JStr s) v' -> v' = JStr s.
Proof. intros U H. inversion H; subst. f_equal. symmetry. auto. Qed.
Lemma hex_utf8 l s : HexText l s -> Utf8 s.
Proof.
  intros H. apply utf8_ascii. assert (K : forall c h, hex_value c = Some h -> c < 128).
  { intros c h E. unfold hex_value in E. destruct ((48 <=? c) && (c <=? 57)) eqn:A; [apply andb_true_iff in A as [_ A]; apply N.leb_le in A; lia |].
    destruct ((65 <=? c) && (c <=? 70)) eqn:B; [apply andb_true_iff in B as [_ B]; apply N.leb_le in B; lia |].
    destruct ((97 <=? c) && (c <=? 102)) eqn:C; [apply andb_true_iff in C as [_ C]; apply N.leb_le in C; lia | discriminate]. }
  induction H; constructor; [eapply K; eassumption |]. constructor; [eapply K; eassumption | assumption].
Qed.
Lemma harmless_utf8 l : harmless l -> Utf8 l.
Proof. intros (cs & F & ->). exists cs. split; [eapply Forall_impl; [| exact F]; cbn; tauto | reflexivity]. Qed.
Lemma same_type t v v' : t <= 2 ^ 53 -> ShowsType t v -> Same v v' -> ShowsType t v'.
Proof.
  intros B [(m & I & ->) | [N S]] H; [left | right].
  - exists m. split; [exact I |]. apply same_text in H; [exact H |]. apply utf8_ascii. cbn in I. repeat (destruct I as [I | I]; [injection I as <- <-; repeat constructor |]). destruct I.
  - split; [exact N |]. eapply same_num; eassumption.
Qed.
Lemma same_types m v v' : is_mask m -> ShowsTypes m v -> Same v v' -> ShowsTypes m v'.
Proof.
  intros [L _] (ts & vs & -> & F & ND & H) S. inversion S as [| | | | ? vs' F' |]; subst. exists ts, vs'. split; [reflexivity |]. split; [| auto].
  assert (B : Forall (fun t => t <= 2 ^ 53) ts).
  { apply Forall_forall. intros t I. apply H in I. unfold type_in in I. destruct (Compare_dec.lt_dec (N.to_nat (t / 8)) (List.length m)) as [K | K]; [| rewrite nth_overflow, N.bits_0 in I by lia; discriminate].
    pose proof (N.div_mod t 8 ltac:(discriminate)). pose proof (N.mod_lt t 8 ltac:(discriminate)).
    assert (t / 8 < 8192) by (rewrite L in K; lia). change (2 ^ 53) with 9007199254740992. lia. }
  clear -F F' B. revert vs' F'. induction F as [| t v ts vs S F IH]; intros vs' F'; inversion F'; subst; [constructor |]. inversion B; subst. constructor; [eapply same_type; eassumption | auto].
Qed.

Definition small (f : field) : Prop := match f with FNum n => n <= 2 ^ 53 | FBytes l | FContents l => is_bytes l | FTypes m => is_mask m | _ => True end.
Definition not_text (f : field) : Prop := match f with FText _ => False | _ => True end.
Lemma same_shows f v v' : small f -> not_text f -> Shows f v -> Same v v' -> Shows f v'.
Proof.
  intros B NT S H. destruct f as [s | n | l | l | m | l]; cbn [Shows small not_text] in *; [contradiction | eapply same_num; eassumption | eapply same_bytes; eassumption | | eapply same_types; eassumption |].
  - destruct S as (s & -> & HT). apply same_text in H; [| eapply hex_utf8; eassumption]. eauto.
  - destruct S as [[A ->] | [A S]]; [left | right]; (split; [exact A |]); [apply same_text in H; [exact H | apply harmless_utf8; exact A] | eapply same_bytes; eassumption].
Qed.
Lemma fields_small r : Held r -> Forall (fun kf => small (snd kf)) (fields r).
Proof.
  intros H. unfold Held in H. destruct r as [r|r|r|r|r|r|r|r|r|r|r|r]; cbn [typed_rr] in H; repeat match type of H with _ /\ _ => let A := fresh "A" in destruct H as [A H] end;
  repeat (constructor; [cbn [snd small]; first [exact I | assumption | unfold is_u8, is_u16, is_u32 in *; change (2 ^ 53) with 9007199254740992; lia] |]); constructor.
Qed.

Lemma ascii_text r k s : Held r -> In (k, FText s) (fields r) -> Forall (fun c => c < 128) s.
Proof.
  intros H I. pose proof (fields_ok r H) as F. rewrite Forall_forall in F. destruct (F _ I) as (_ & _ & Q). cbn [snd field_ok] in Q. unfold quotable in Q. eapply Forall_impl; [| exact Q]. cbn. intros; lia.
Qed.
Lemma str_plain s d : ~ In 92 s -> Str s d -> d = s.
Proof. intros N H. induction H; [reflexivity | | |]; [| exfalso; apply N; left; reflexivity ..]. f_equal. apply IHStr. intros I. apply N. right. exact I. Qed.

Definition alike (f0 f : field) : Prop :=
  match f0, f with FText _, FText _ | FNum _, FNum _ | FBytes _, FBytes _ | FHex _, FHex _ | FTypes _, FTypes _ | FContents _, FContents _ => True | _, _ => False end.
Lemma field_seen f0 f v v' : alike f0 f -> small f0 -> small f -> (forall s, f = FText s -> Forall (fun c => c < 128) s) -> Reads f0 v -> Same v v' -> Shows f v' ->
  Undone f0 f.
Proof.
  intros K B B' AS R S S'. destruct f0 as [s | n | l | l | m | l], f as [s' | n' | l' | l' | m' | l']; try contradiction; cbn [Reads] in R.
  { destruct R as (d & ST & ->). cbn [Shows] in S'. subst v'. inversion S as [| | | a b E | |]; subst. rewrite <- E; [exact ST |]. right. apply AS. reflexivity. }
  all: pose proof (same_shows _ v v' B I R S) as R'; cbn [Undone]; f_equal.
  - exact (num_inj _ _ _ R' S').
  - exact (bytes_inj _ _ _ R' S').
  - exact (hexf_eq _ _ _ R' S').
  - exact (types_inj _ _ _ B B' R' S').
  - exact (contents_inj _ _ _ R' S').
Qed.

Lemma keys_good r : NoDup (map (fun f => bs (fst f)) (fields r)) /\ Forall (fun f => ~ numeral (bs (fst f))) (fields r).
Proof.
  split.
  - destruct r; cbn [fields map fst]; repeat (constructor; [cbn; intuition discriminate |]); constructor.
  - destruct r; cbn [fields]; repeat (constructor; [intros [_ F]; cbn in F; inversion F as [| ? ? D]; unfold is_digit in D; lia |]); constructor.
Qed.
Lemma forall2_keys {A B C} (g : A -> B) (P : A -> B * C -> Prop) (HP : forall x y, P x y -> fst y = g x) l l' : Forall2 P l l' -> map fst l' = map g l.
Proof. induction 1; cbn; [reflexivity | f_equal; auto]. Qed.
Lemma forall2_both {A B C D} (P : A -> B -> Prop) (Q : B -> C -> Prop) (R : D -> C -> Prop) l m m' l' :
  Forall2 P l m -> Forall2 Q m m' -> Forall2 R l' m' -> Forall2 (fun a d => exists b c, P a b /\ Q b c /\ R d c) l l'.
Proof.
  intros F. revert m' l'. induction F as [| a b l m H F IH]; intros m' l' F1 F2; inversion F1; subst; inversion F2; subst; [constructor |]. constructor; [eauto |]. eapply IH; eassumption.
Qed.
Lemma bs_inj a b : bs a = bs b -> a = b.
Proof.
  revert b. induction a as [| c a IH]; intros [| c' b] H; try discriminate H; [reflexivity |]. cbn in H. injection H as H1 H2. f_equal; [| auto].
  apply (f_equal Ascii.ascii_of_N) in H1. rewrite !Ascii.ascii_N_embedding in H1. exact H1.
Qed.

Lemma record_seen r0 r j j' : Held r0 -> Held r -> ReadsAs r0 j -> Same j j' -> Describes r j' -> Spelled r0 r.
Proof.
  intros H0 H (kvs & -> & F) S (kvs' & -> & F'). inversion S as [| | | | | ? ? K]; subst.
  assert (KE : map fst kvs = map (fun f => bs (fst f)) (fields r0)) by (eapply (forall2_keys (fun f : string * field => bs (fst f))); [| exact F]; cbn; intros ? ? [A _]; exact A).
  assert (G : Forall2 (fun f0 f => exists kv kv', (fst kv = bs (fst f0) /\ Reads (snd f0) (snd kv)) /\ (fst kv = fst kv' /\ Same (snd kv) (snd kv')) /\ (fst kv' = bs (fst f) /\ Shows (snd f) (snd kv'))) (fields r0) (fields r)).
  { eapply forall2_both; [exact F | | exact F']. apply K.
    - rewrite KE. apply keys_good.
    - destruct (keys_good r0) as [_ N]. clear -F N. induction F as [| f kv l l' [E _] F IH]; [constructor |]. inversion N; subst. constructor; [rewrite E; assumption | auto]. }
  clear K KE F F' S.
  assert (AL : Forall2 (fun f0 f => alike (snd f0) (snd f)) (fields r0) (fields r)).
  { assert (T : match fields r0, fields r with (_, FText s) :: _, (_, FText d) :: _ => s = d | _, _ => False end).
    { destruct (fields r0) as [| f0 l0] eqn:E0; [destruct r0; discriminate E0 |]. destruct (fields r) as [| f l] eqn:E; [destruct r; discriminate E |].
      inversion G as [| ? ? ? ? (kv & kv' & [_ R] & [_ SM] & [_ SH]) _]; subst.
      assert (X : exists a k, f0 = (k, FText a) /\ ~ In 92 a /\ Utf8 a) by (destruct r0; cbn in E0; injection E0 as <- _; eexists; eexists; (split; [reflexivity | split; [cbn; intuition discriminate | apply utf8_ascii; repeat constructor]])).
      assert (Y : exists a k, f = (k, FText a)) by (destruct r; cbn in E; injection E as <- _; eexists; eexists; reflexivity).
      destruct X as (a & k & -> & NB & U), Y as (b & k' & ->). cbn [snd Reads Shows] in R, SH. destruct R as (d & ST & EV). rewrite EV, SH in SM. rewrite (str_plain _ _ NB ST) in SM.
      inversion SM as [| | | ? ? EE | |]; subst. auto. }
    clear -T. destruct r0, r; cbn [fields] in T; apply bs_inj in T; try discriminate T; repeat (constructor; [exact I |]); constructor. }
  unfold Spelled. pose proof (fields_small _ H0) as B0. pose proof (fields_small _ H) as B.
  assert (AS : Forall (fun f => forall s, snd f = FText s -> Forall (fun c => c < 128) s) (fields r)).
  { apply Forall_forall. intros [k f] I s E. cbn in E. subst f. eapply ascii_text; eassumption. }
  revert G AL B0 B AS. generalize (fields r0) (fields r). clear. intros l0 l G. induction G as [| f0 f l0 l (kv & kv' & [E1 R] & [E2 SM] & [E3 SH]) G IH]; intros AL B0 B AS; [constructor |].
  inversion AL; inversion B0; inversion B; inversion AS; subst. constructor; [| auto]. split; [apply bs_inj; congruence |]. apply (field_seen _ _ (snd kv) (snd kv')); assumption.
Qed.

(** ** Spelling *)
Lemma spelled_name r0 r : Spelled r0 r -> Str (rr_name r0) (rr_name r).
Proof.
  intros S. unfold Spelled in S. destruct r0, r; cbn [fields] in S; inversion S as [| ? ? ? ? _ S1]; subst; inversion S1 as [| ? ? ? ? [_ N] _]; subst; exact N.
Qed.
Lemma spelled_plain r0 r : Spelled r0 r -> no_backslash r0 -> r = r0.
Proof.
  intros S N. assert (E : fields r = fields r0).
  { unfold no_backslash in N. unfold Spelled in S. revert S N. generalize (fields r0) (fields r). intros l0 l S. induction S as [| [k0 f0] [k f] l0 l [K M] S IH]; intros N; [reflexivity |].
    cbn [fst snd] in *. subst k0. f_equal; [| apply IH; intros k' s I; apply (N k' s); right; exact I]. f_equal.
    destruct f0 as [s | | | | |], f; cbn [Undone] in M; try congruence. f_equal. apply str_plain; [| exact M]. apply (N k s). left. reflexivity. }
  destruct r0 as [x|x|x|x|x|x|x|x|x|x|x|x], r as [y|y|y|y|y|y|y|y|y|y|y|y]; cbn [fields] in E; try discriminate E; destruct x, y; cbn in E; congruence.
Qed.

(** ** Results *)
Lemma result_seen v V j j' : Forall Held (vr_rrs v) -> Forall Held (vr_rrs V) -> vr_valid_from v <= 2 ^ 53 -> vr_expires v <= 2 ^ 53 -> vr_max_cache_ttl v <= 2 ^ 53 ->
  ReadsResult v j -> Same j j' -> DescribesResult V j' ->
  vr_valid_from V = vr_valid_from v /\ vr_expires V = vr_expires v /\ vr_max_cache_ttl V = vr_max_cache_ttl v /\ Forall2 Spelled (vr_rrs v) (vr_rrs V).
Proof.
  intros H H' B1 B2 B3 (a & b & c & rs & -> & S1 & S2 & S3 & F) S (a' & b' & c' & rs' & -> & S1' & S2' & S3' & F'). inversion S as [| | | | | ? ? K]; subst.
  assert (K' := K ltac:(repeat (constructor; [cbn; intuition discriminate |]); constructor) ltac:(repeat (constructor; [intros [_ X]; cbn in X; inversion X as [| ? ? D]; unfold is_digit in D; lia |]); constructor)). clear K S.
  inversion K' as [| ? ? ? ? [_ M1] K1]; subst. inversion K1 as [| ? ? ? ? [_ M2] K2]; subst. inversion K2 as [| ? ? ? ? [_ M3] K3]; subst. inversion K3 as [| ? ? ? ? [_ M4] _]; subst. cbn [snd] in *.
  split; [exact (num_inj _ _ _ S1' (same_num _ _ _ B1 S1 M1)) |]. split; [exact (num_inj _ _ _ S2' (same_num _ _ _ B2 S2 M2)) |]. split; [exact (num_inj _ _ _ S3' (same_num _ _ _ B3 S3 M3)) |].
  inversion M4 as [| | | | ? ? G |]; subst. clear -H H' F F' G. revert rs' G H F' H'. generalize (vr_rrs V). induction F as [| r0 j l0 js R F IH]; intros L rs' G H F' H'; inversion G; subst; inversion F'; subst; [constructor |].
  inversion H; inversion H'; subst. constructor; [eapply record_seen; eassumption |]. eapply IH; eassumption.
Qed.
