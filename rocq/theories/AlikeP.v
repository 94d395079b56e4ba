(** Which streams mean the same records (for C90). *)
From Verif Require Import Base NameM WireM RRM SerM ValM BaseP NameSpec WireSpec BitmapSpec RecSpec CodecSpec NameP WireP BitmapP RecP RecP2 QueryP JsonM AlikeSpec CanonP.
Local Open Scope N_scope.

Definition ok_labels (ls : list bytes) : Prop := Forall (fun l => (1 <= List.length l <= 191)%nat) ls.
Lemma wire_labels_inv ls : forall ls' x x', ok_labels ls -> ok_labels ls' -> wire_name ls ++ x = wire_name ls' ++ x' -> ls = ls' /\ x = x'.
Proof.
  unfold wire_name, ok_labels. induction ls as [| l ls IH]; intros [| l' ls'] x x' F F' E; cbn [wire_labels flat_map app] in E.
  - injection E as <-. auto.
  - exfalso. inversion F'; subst. injection E as E _. lia.
  - exfalso. inversion F; subst. injection E as E _. lia.
  - injection E as E1 E2. inversion F; subst. inversion F'; subst. rewrite <- !app_assoc in E2. apply app_inv_len in E2 as [-> E2]; [| unfold len; exact E1].
    rewrite !app_assoc in E2. destruct (IH ls' x x') as [-> ->]; auto.
Qed.
Lemma lower_char c : to_lower c = 46 -> c = 46.
Proof. unfold to_lower. destruct ((65 <=? c) && (c <=? 90)) eqn:E; [| auto]. apply andb_true_iff in E as [A B]. apply N.leb_le in A, B. lia. Qed.
Lemma label_char_back c c' : to_lower c = to_lower c' -> label_char c -> label_char c'.
Proof.
  unfold to_lower, label_char. destruct ((65 <=? c) && (c <=? 90)) eqn:E, ((65 <=? c') && (c' <=? 90)) eqn:E'; rewrite ?andb_true_iff, ?N.leb_le in *; intros H K; subst; lia.
Qed.
Lemma same_dots ls : forall s, lower s = lower (dots ls) -> exists ls', s = dots ls' /\ map lower ls' = map lower ls.
Proof.
  induction ls as [| l ls IH]; intros s H.
  - exists []. cbn in H. apply map_eq_nil in H. auto.
  - rewrite dots_cons in H. unfold lower in H. rewrite map_app in H. cbn [map] in H. apply map_eq_app in H as (p & q & -> & Hp & Hq).
    destruct q as [| c q]; [discriminate |]. cbn [map] in Hq. injection Hq as Hc Hq. apply lower_char in Hc. subst c. destruct (IH q Hq) as (ls' & -> & E).
    exists (p :: ls'). split; [rewrite dots_cons; reflexivity |]. cbn [map]. unfold lower at 1 3. rewrite Hp, E. reflexivity.
Qed.
Lemma acceptable_case s s' : lower s = lower s' -> acceptable s -> acceptable s'.
Proof.
  intros E (ls & NE & -> & F & L). destruct (same_dots ls s' (eq_sym E)) as (ls' & -> & M). exists ls'.
  split; [destruct ls'; [destruct ls; [congruence | discriminate] | discriminate] |]. split; [reflexivity |]. split.
  - clear - F M. revert ls' M. induction F as [| l ls [A B] F IH]; intros [| l' ls'] M; try discriminate; constructor.
    + injection M as M1 _. split; [apply (f_equal (@List.length N)) in M1; unfold lower in M1; rewrite !map_length in M1; lia |].
      clear - B M1. revert l' M1. induction B as [| c l A B IH]; intros [| c' l'] M; try discriminate; constructor; injection M as M1 M2; [eapply label_char_back; [symmetry; exact M1 | exact A] | apply IH; exact M2].
    + apply IH. injection M as _ M. exact M.
  - apply (f_equal (@List.length N)) in E. unfold lower in E. rewrite !map_length in E. lia.
Qed.
Lemma text_case s s' : lower s = lower s' -> lower (text_or_root s) = lower (text_or_root s').
Proof. destruct s, s'; try discriminate; auto. Qed.
Lemma plain_same ls ls' n : SameName ls ls' -> NamePlain (wire_name ls) n -> NamePlain (wire_name ls') n.
Proof.
  intros (F & F' & E) (l0 & F0 & W & A & N). assert (W' : wire_name ls ++ [] = wire_name l0 ++ []) by (rewrite W; reflexivity).
  apply wire_labels_inv in W' as [<- _]; auto. exists ls'. split; [exact F' |]. split; [reflexivity |]. apply text_case in E.
  split; [eapply acceptable_case; [exact E | exact A] |]. rewrite N. exact E.
Qed.
Lemma root_text ls : ok_labels ls -> forall ls', ok_labels ls' -> lower (text_or_root (dots ls)) = lower (text_or_root (dots ls')) -> lower (dots ls) = lower (dots ls').
Proof.
  assert (K : forall l ls c, ok_labels (l :: ls) -> lower (dots (l :: ls)) <> [c]).
  { intros l ls0 c F H. apply (f_equal (@List.length N)) in H. unfold lower in H. rewrite map_length, dots_cons, app_length in H. cbn in H. inversion F; subst. lia. }
  assert (T : forall l ls, text_or_root (dots (l :: ls)) = dots (l :: ls)) by (intros l ls0; rewrite dots_cons; destruct l; reflexivity).
  intros F ls' F' H. destruct ls as [| l ls], ls' as [| l' ls']; auto; rewrite ?T in H; auto.
  - exfalso. symmetry in H. exact (K _ _ _ F' H).
  - exfalso. exact (K _ _ _ F H).
Qed.
Lemma same_plain b b' n : NamePlain b n -> NamePlain b' n -> exists ls ls', b = wire_name ls /\ b' = wire_name ls' /\ SameName ls ls'.
Proof.
  intros (ls & F & -> & _ & N) (ls' & F' & -> & _ & N'). exists ls, ls'. split; [reflexivity |]. split; [reflexivity |]. split; [exact F |]. split; [exact F' |].
  apply root_text; auto. congruence.
Qed.
Lemma plain_split ls b n x y : ok_labels ls -> NamePlain b n -> wire_name ls ++ x = b ++ y -> b = wire_name ls /\ x = y.
Proof. intros F (l0 & F0 & -> & _) E. apply wire_labels_inv in E as [-> ->]; auto. Qed.
Lemma in_strings_inv strs : forall strs', in_strings strs = in_strings strs' -> strs = strs'.
Proof.
  unfold in_strings. induction strs as [| s strs IH]; intros [| s' strs'] E; cbn [flat_map app] in E; try discriminate; [reflexivity |].
  apply lp_inv in E as [-> E]. f_equal. apply IH. exact E.
Qed.
Lemma bitmap_fun bits mask mask' : BitmapEnc bits mask -> BitmapEnc bits mask' -> mask = mask'.
Proof. intros H H'. apply read_bitmap_spec in H, H'. congruence. Qed.

Lemma data_transport lax ty o r data data' : SameData lax ty data data' -> RData NamePlain lax ty o r data -> RData NamePlain lax ty o r data'.
Proof.
  intros S R. destruct S as [ty d | ty ls ls' extra extra' I N X | strs strs' E | h ls ls' sg L N | ls ls' bits bits' N (mask & B & B') | h salt nh bits bits' L (mask & B & B')]; [exact R | | | | |].
  - pose proof N as (F & F' & _). inversion R as [? a L | ? a L | ? b n ex HN HX | ? b n ex HN HX | ? b n ex HN HX | ? ss | ? u0 s0 t0 d0 | ? f p a k | ? t a y d0 | ? ty0 a l0 ttl ex inc tag b n s0 HN | ? b n bits mask HN HB | ? al fl it salt nh bits mask HB]; subst; try (exfalso; cbn in I; lia).
    all: match goal with E : ?b ++ ?ex = _, HN : NamePlain ?b ?n |- _ => symmetry in E; apply (plain_split ls b n) in E as [-> <-]; [| exact F | exact HN] end; constructor; [eapply plain_same; eauto |]; destruct X as [X | <-]; auto.
  - inversion R; subst. match goal with E : _ = in_strings strs |- _ => apply in_strings_inv in E; subst end. rewrite E. apply RD_Txt.
  - pose proof N as (F & F' & _). inversion R as [| | | | | | | | | ? ty0 a l0 ttl ex inc tag b n s0 HN HE1 HE2 | |]; subst.
    match goal with E : _ = h ++ wire_name ls ++ sg |- _ => rename E into EQ end.
    assert (EQ' : (u16 ty0 ++ a :: l0 :: u32 ttl ++ u32 ex ++ u32 inc ++ u16 tag) ++ b ++ s0 = h ++ wire_name ls ++ sg) by exact EQ. clear EQ. rename EQ' into EQ.
    apply app_inv_len in EQ as [<- EQ]; [| unfold len; unfold length_of in L; rewrite L; reflexivity]. symmetry in EQ. apply (plain_split ls b n) in EQ as [-> <-]; [| exact F | exact HN].
    apply (RD_RRSig _ _ o ty0 a l0 ttl ex inc tag (wire_name ls') n sg). eapply plain_same; eauto.
  - pose proof N as (F & F' & _). inversion R as [| | | | | | | | | | ? b n bits0 mask0 HN HB |]; subst.
    match goal with E : b ++ bits0 = _ |- _ => symmetry in E; apply (plain_split ls b n) in E as [-> <-]; [| exact F | exact HN] end.
    rewrite (bitmap_fun _ _ _ HB B). apply RD_NSec; [eapply plain_same; eauto | exact B'].
  - inversion R as [| | | | | | | | | | | ? al fl it salt0 nh0 bits0 mask0 HB]; subst.
    match goal with E : _ = h ++ _ |- _ => rename E into EQ end.
    assert (EQ' : (al :: fl :: u16 it) ++ (length_of salt0 :: salt0 ++ length_of nh0 :: nh0 ++ bits0) = h ++ length_of salt :: salt ++ length_of nh :: nh ++ bits) by exact EQ. clear EQ. rename EQ' into EQ.
    apply app_inv_len in EQ as [<- EQ]; [| unfold len; unfold length_of in L; rewrite L; reflexivity]. apply lp_inv in EQ as [-> EQ]. apply lp_inv in EQ as [-> ->].
    rewrite (bitmap_fun _ _ _ HB B). apply (RD_NSec3 _ _ o al fl it salt nh bits' mask). exact B'.
Qed.
Lemma u32_app_inv a b x y : u32 a ++ x = u32 b ++ y -> x = y.
Proof. unfold u32. cbn [app]. congruence. Qed.
Lemma stream_transport lax inp inp' : SameStream lax inp inp' -> forall rs, StreamEnc NamePlain lax inp rs -> StreamEnc NamePlain lax inp' rs.
Proof.
  induction 1 as [| rec rec' rest rest' R S IH]; intros rs E; [exact E |].
  destruct R as [ls ls' ty ttl ttl' data data' N D]. pose proof N as (F & F' & _).
  inversion E as [HE |rec0 r ttl0 rest0 rs0 R0 S0 HE]; subst.
  - exfalso. destruct ls; discriminate.
  - destruct R0 as [nb o ty0 ttl0 r data0 HN HD]. rewrite <- !app_assoc in HE. symmetry in HE. apply (plain_split ls nb o) in HE as [-> HE]; [| exact F | exact HN].
    apply u16_app_inv in HE as [<- HE]. apply u16_app_inv in HE as [_ HE]. apply u32_app_inv in HE. apply u16_app_inv in HE as [LE HE].
    apply app_inv_len in HE as [<- <-]; [| exact LE].
    apply (SE_cons _ _ _ r ttl'); [apply (RecordEnc_intro _ _ _ o); [eapply plain_same; eauto | eapply data_transport; eauto] | apply IH; exact S0].
Qed.
Lemma same_sym lax ty d d' : SameData lax ty d d' -> SameData lax ty d' d.
Proof.
  assert (K : forall ls ls', SameName ls ls' -> SameName ls' ls) by (intros ls ls' (A & B & C); repeat split; auto).
  intros S. destruct S as [ty d | ty ls ls' extra extra' I N X | strs strs' E | h ls ls' sg L N | ls ls' bits bits' N (mask & B & B') | h salt nh bits bits' L (mask & B & B')].
  - apply SD_same.
  - apply SD_name; auto. destruct X; auto.
  - apply SD_txt; auto.
  - apply SD_sig; auto.
  - apply SD_nsec; auto. exists mask; auto.
  - apply SD_nsec3; auto. exists mask; auto.
Qed.
Lemma stream_sym lax inp inp' : SameStream lax inp inp' -> SameStream lax inp' inp.
Proof. induction 1 as [| rec rec' rest rest' R S IH]; constructor; auto. destruct R as [ls ls' ty ttl ttl' data data' (A & B & C) D]. constructor; [repeat split; auto | apply same_sym; exact D]. Qed.
Lemma data_same lax ty o r data data' : RData NamePlain lax ty o r data -> RData NamePlain lax ty o r data' -> SameData lax ty data data'.
Proof.
  intros R R'.
  assert (K : forall b n extra b' extra', In ty [2; 5; 39] -> NamePlain b n -> NamePlain b' n -> lax = true \/ extra = [] -> lax = true \/ extra' = [] -> SameData lax ty (b ++ extra) (b' ++ extra')).
  { intros b n ex b' ex' I H H' X X'. destruct (same_plain _ _ _ H H') as (ls & ls' & -> & -> & SN). apply SD_name; auto. destruct X; auto. destruct X'; auto. right. congruence. }
  inversion R; subst; inversion R'; subst; try apply SD_same; try (eapply K; eauto; cbn; auto; fail).
  - apply SD_txt. congruence.
  - destruct (same_plain b b0 n) as (ls & ls' & -> & -> & SN); auto.
    change (u16 ty0 ++ a :: l :: u32 ttl ++ u32 ex ++ u32 inc ++ u16 tag ++ ?x) with ((u16 ty0 ++ a :: l :: u32 ttl ++ u32 ex ++ u32 inc ++ u16 tag) ++ x). apply SD_sig; [reflexivity | exact SN].
  - destruct (same_plain b b0 n) as (ls & ls' & -> & -> & SN); auto. apply SD_nsec; [exact SN | exists mask; auto].
  - change (al :: fl :: u16 it ++ ?x) with ((al :: fl :: u16 it) ++ x). apply SD_nsec3; [reflexivity | exists mask; auto].
Qed.
Lemma data_type lax ty o r data : RData NamePlain lax ty o r data -> ty = rr_ty r /\ o = rr_name r.
Proof. intros R. inversion R; subst; split; reflexivity. Qed.
Lemma stream_same lax inp rs : StreamEnc NamePlain lax inp rs -> forall inp', StreamEnc NamePlain lax inp' rs -> SameStream lax inp inp'.
Proof.
  induction 1 as [| rec r ttl rest rs R S IH]; intros inp' E; inversion E as [| rec' r' ttl' rest' rs' R' S']; subst; constructor; auto.
  destruct R as [nb o ty ttl r data N D], R' as [nb' o' ty' ttl' r data' N' D']. destruct (data_type _ _ _ _ _ D) as [-> ->], (data_type _ _ _ _ _ D') as [-> ->].
  destruct (same_plain _ _ _ N N') as (ls & ls' & -> & -> & SN). constructor; [exact SN | eapply data_same; eauto].
Qed.

Lemma alike_exact dbg inp inp' rs : is_bytes inp -> is_bytes inp' -> parse_rr_stream dbg inp = Ok rs ->
  (parse_rr_stream dbg inp' = Ok rs <-> SameStream (negb dbg) inp inp').
Proof.
  intros B B' P. apply is_bytes_ok in B, B'. apply parse_stream_spec in P; [| exact B]. rewrite parse_stream_spec by exact B'.
  split; intros H; [eapply stream_same; eauto | eapply stream_transport; eauto].
Qed.
Lemma alike_both dbg inp inp' : is_bytes inp -> is_bytes inp' -> SameStream (negb dbg) inp inp' -> forall rs, parse_rr_stream dbg inp = Ok rs <-> parse_rr_stream dbg inp' = Ok rs.
Proof.
  intros B B' S rs. split; intros P.
  - apply (alike_exact dbg inp inp' rs B B' P). exact S.
  - apply (alike_exact dbg inp' inp rs B' B P). apply stream_sym. exact S.
Qed.
Lemma alike_verdict e dbg fuel inp inp' rs : is_bytes inp -> is_bytes inp' -> parse_rr_stream dbg inp = Ok rs -> SameStream (negb dbg) inp inp' ->
  verify_byte_stream e dbg fuel inp' = verify_byte_stream e dbg fuel inp.
Proof. intros B B' P S. unfold verify_byte_stream. rewrite P, (proj1 (alike_both dbg inp inp' B B' S rs) P). reflexivity. Qed.
