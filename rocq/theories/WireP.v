(** Proofs about reading and writing wire names (C04-C06). *)
From Verif Require Import Base NameM NameSpec WireSpec BaseP WireM NameP.
From Coq Require Import Arith.
Local Open Scope N_scope.

Lemma utf8_ascii l : Forall (fun c => c < 128) l -> utf8_ok l = true.
Proof.
  induction 1; [reflexivity|]. cbn. apply N.ltb_lt in H. rewrite H. auto.
Qed.

Lemma is_nil_fin nm : (if is_nil nm then [dot] else nm) = text_or_root nm.
Proof. destruct nm; reflexivity. Qed.

Lemma do_read_sound limit : forall wire inp nm nm' rest,
  do_read_wire_packet_labels limit wire inp nm = Ok (nm', rest) ->
  exists text, NameEnc wire limit inp text rest /\ nm' = text_or_root (nm ++ text).
Proof.
  induction limit as [|limit IHl]; intros wire inp nm nm' rest; cbn [do_read_wire_packet_labels];
  generalize (S (length inp)) as fuel; intros fuel; revert inp nm; induction fuel as [|fuel IHf];
  intros inp nm H; cbn [labels_loop] in H; try discriminate.
  - destruct inp as [|l inp1]; [discriminate|].
    destruct (l =? 0) eqn:E0.
    + apply N.eqb_eq in E0. subst. injection H as <- <-. exists []. rewrite app_nil_r, is_nil_fin. split; [constructor|auto].
    + apply N.eqb_neq in E0.
      destruct (len inp1 <=? l) eqn:E1; [discriminate|]. apply N.leb_gt in E1.
      destruct (negb (utf8_ok (takeN l inp1))); [discriminate|].
      destruct (255 <? len (nm ++ takeN l inp1 ++ [dot])); [discriminate|].
      apply IHf in H as (text & HE & ->). exists (takeN l inp1 ++ 46 :: text). split.
      * rewrite <- (takeN_dropN l inp1) at 1. apply NE_label; auto; [lia|].
        apply len_takeN. lia.
      * rewrite <- !app_assoc. reflexivity.
  - destruct inp as [|l inp1]; [discriminate|].
    destruct (l =? 0) eqn:E0.
    + apply N.eqb_eq in E0. subst. injection H as <- <-. exists []. rewrite app_nil_r, is_nil_fin. split; [constructor|auto].
    + apply N.eqb_neq in E0. destruct (192 <=? l) eqn:E192.
      * apply N.leb_le in E192. destruct inp1 as [|lo inp2]; [discriminate|]. cbn [read_u8 obind] in H.
        destruct (len wire <=? (l - 192) * 256 + lo) eqn:E2; [discriminate|]. apply N.leb_gt in E2.
        apply obind_ok in H as (n1 & H1 & H2). apply obind_ok in H1 as ((n2 & r2) & H1 & H3).
        injection H3 as ->. injection H2 as <- <-.
        apply IHl in H1 as (text & HE & ->). exists text. split; [|reflexivity].
        eapply NE_ptr; eauto.
      * apply N.leb_gt in E192.
        destruct (len inp1 <=? l) eqn:E1; [discriminate|]. apply N.leb_gt in E1.
        destruct (negb (utf8_ok (takeN l inp1))); [discriminate|].
        destruct (255 <? len (nm ++ takeN l inp1 ++ [dot])); [discriminate|].
        apply IHf in H as (text & HE & ->). exists (takeN l inp1 ++ 46 :: text). split.
        -- rewrite <- (takeN_dropN l inp1) at 1. apply NE_label; auto; [lia|].
           apply len_takeN. lia.
        -- rewrite <- !app_assoc. reflexivity.
Qed.

Lemma NameEnc_nonempty pkt d inp text rest : NameEnc pkt d inp text rest -> inp <> [].
Proof. inversion 1; congruence. Qed.

Lemma labels_loop_complete pkt d inp text rest : NameEnc pkt d inp text rest ->
  forall nm fuel, (length inp < fuel)%nat -> len (nm ++ text) <= 255 -> Forall (fun c => c < 128) text ->
  labels_loop
    (match d with
     | O => None
     | S l => Some (fun i n => '(nm', _) <- do_read_wire_packet_labels l pkt i n ;; Ok nm')
     end) pkt fuel inp nm = Ok (text_or_root (nm ++ text), rest).
Proof.
  induction 1; intros nm fuel Hf Hlen Hasc; (destruct fuel as [|fuel]; [lia|]); cbn [labels_loop].
  - rewrite app_nil_r. rewrite is_nil_fin. reflexivity.
  - replace (l =? 0) with false by (symmetry; apply N.eqb_neq; lia).
    assert (HL : len content = l) by exact H1.
    rewrite (takeN_app l), (dropN_app l) by auto.
    assert (Hin : inp <> []) by (eapply NameEnc_nonempty; eauto).
    assert (Hc : Forall (fun c => c < 128) content /\ Forall (fun c => c < 128) text).
    { apply Forall_app in Hasc as [? Ha]. inversion Ha; auto. }
    rewrite !len_app, len_cons in Hlen.
    assert (Hr : (if len (content ++ inp) <=? l then Err tt
                  else if negb (utf8_ok content) then Err tt
                  else if 255 <? len (nm ++ content ++ [dot]) then Err tt
                  else labels_loop match d with
                      | O => None
                      | S l => Some (fun i n => '(nm', _) <- do_read_wire_packet_labels l pkt i n ;; Ok nm')
                      end pkt fuel inp (nm ++ content ++ [dot]))
                 = Ok (text_or_root (nm ++ content ++ 46 :: text), rest)).
    { replace (len (content ++ inp) <=? l) with false.
      2:{ symmetry. apply N.leb_gt. rewrite len_app. destruct inp; [congruence|]. rewrite len_cons. lia. }
      rewrite utf8_ascii by tauto. cbn [negb].
      replace (255 <? len (nm ++ content ++ [dot])) with false.
      2:{ symmetry. apply N.ltb_ge. rewrite !len_app. change (len [dot]) with 1. lia. }
      rewrite IHNameEnc.
      - rewrite <- !app_assoc. reflexivity.
      - cbn [length] in Hf. rewrite app_length in Hf. lia.
      - rewrite !len_app. change (len [dot]) with 1. lia.
      - tauto. }
    destruct d as [|d].
    + exact Hr.
    + replace (192 <=? l) with false by (symmetry; apply N.leb_gt; lia). exact Hr.
  - replace (hi =? 0) with false by (symmetry; apply N.eqb_neq; lia).
    replace (192 <=? hi) with true by (symmetry; apply N.leb_le; lia). cbn [read_u8 obind].
    replace (len pkt <=? (hi - 192) * 256 + lo) with false by (symmetry; apply N.leb_gt; unfold len; lia).
    replace (do_read_wire_packet_labels d pkt (dropN ((hi - 192) * 256 + lo) pkt) nm)
      with (@Ok unit _ (text_or_root (nm ++ text), rest')).
    + reflexivity.
    + symmetry. unfold dropN. destruct d; cbn [do_read_wire_packet_labels]; apply IHNameEnc; auto; lia.
Qed.

Lemma do_read_complete pkt d inp text rest nm : NameEnc pkt d inp text rest ->
  len (nm ++ text) <= 255 -> Forall (fun c => c < 128) text ->
  do_read_wire_packet_labels d pkt inp nm = Ok (text_or_root (nm ++ text), rest).
Proof.
  intros. assert (H' := labels_loop_complete _ _ _ _ _ H nm (S (length inp)) ltac:(lia) H0 H1).
  destruct d; exact H'.
Qed.

Definition no_crash {E A} (o : outcome E A) : Prop := o <> Panic /\ o <> Loop.

Lemma do_read_no_crash limit : forall wire inp nm, no_crash (do_read_wire_packet_labels limit wire inp nm).
Proof.
  unfold no_crash. induction limit as [|limit IHl]; intros wire inp nm; cbn [do_read_wire_packet_labels].
  - assert (Hf : (length inp < S (length inp))%nat) by lia. revert Hf.
    generalize (S (length inp)) as fuel. intros fuel. revert inp nm. induction fuel as [|fuel IHf]; intros inp nm Hf; [lia|].
    cbn [labels_loop]. destruct inp as [|l inp1]; [split; discriminate|].
    destruct (l =? 0); [split; discriminate|].
    destruct (len inp1 <=? l); [split; discriminate|].
    destruct (negb (utf8_ok (takeN l inp1))); [split; discriminate|].
    destruct (255 <? len (nm ++ takeN l inp1 ++ [dot])); [split; discriminate|].
    apply IHf. cbn [length] in Hf. unfold dropN. rewrite skipn_length. lia.
  - assert (Hf : (length inp < S (length inp))%nat) by lia. revert Hf.
    generalize (S (length inp)) as fuel. intros fuel. revert inp nm. induction fuel as [|fuel IHf]; intros inp nm Hf; [lia|].
    cbn [labels_loop]. destruct inp as [|l inp1]; [split; discriminate|].
    destruct (l =? 0); [split; discriminate|]. destruct (192 <=? l).
    + destruct inp1 as [|lo inp2]; [split; discriminate|]. cbn [read_u8 obind].
      destruct (len wire <=? (l - 192) * 256 + lo); [split; discriminate|].
      specialize (IHl wire (dropN ((l - 192) * 256 + lo) wire) nm).
      destruct (do_read_wire_packet_labels limit wire (dropN ((l - 192) * 256 + lo) wire) nm) as [[? ?]| | |];
        cbn [obind]; split; try discriminate; tauto.
    + destruct (len inp1 <=? l); [split; discriminate|].
      destruct (negb (utf8_ok (takeN l inp1))); [split; discriminate|].
      destruct (255 <? len (nm ++ takeN l inp1 ++ [dot])); [split; discriminate|].
      apply IHf. cbn [length] in Hf. unfold dropN. rewrite skipn_length. lia.
Qed.

Lemma read_name_no_crash inp wire : no_crash (read_wire_packet_name inp wire).
Proof.
  unfold read_wire_packet_name, no_crash.
  pose proof (do_read_no_crash 255 wire inp []) as [H1 H2].
  destruct (do_read_wire_packet_labels 255 wire inp []) as [[? ?]| | |]; cbn [obind]; split; try congruence;
    destruct (name_try_from l); discriminate.
Qed.

Lemma acceptable_ascii s : acceptable s -> Forall (fun c => c < 128) s /\ len s <= 255.
Proof.
  intros (ls & H1 & -> & H3 & H4). split; [|unfold len; lia].
  apply forall_dots. split; [|lia]. eapply Forall_impl; [|exact H3]. intros l [_ H].
  eapply Forall_impl; [|exact H]. unfold label_char. intros; lia.
Qed.

Lemma read_name_spec inp pkt n rest :
  read_wire_packet_name inp pkt = Ok (n, rest) <->
  exists text, NameEnc pkt 255 inp text rest /\ acceptable (text_or_root text) /\ n = lower (text_or_root text).
Proof.
  unfold read_wire_packet_name. split.
  - intros H. apply obind_ok in H as ((nm & r) & H1 & H2).
    destruct (name_try_from nm) eqn:E; [|discriminate]. injection H2 as -> ->.
    apply do_read_sound in H1 as (text & HE & ->). exists text. split; auto.
    apply name_try_from_spec in E. exact E.
  - intros (text & HE & Ha & ->).
    assert (Ht : Forall (fun c => c < 128) text /\ len text <= 255).
    { apply acceptable_ascii in Ha. destruct text; auto. split; [constructor|cbn; lia]. }
    rewrite (do_read_complete _ _ _ _ _ [] HE) by (cbn; tauto). cbn [obind app].
    rewrite (proj2 (name_try_from_spec _ (lower (text_or_root text)))); auto.
Qed.

(** ** Writing *)

Lemma lowercase_valid n : valid_name n -> lowercase n = n.
Proof. intros H. apply valid_name_spec in H as [_ H]. exact H. Qed.

Lemma write_calls_nonroot n : lower n = n -> n <> [46] ->
  write_name n = flat_map (fun l => as_u8 (len l) :: l) (split_on 46 n).
Proof.
  intros HL Hr. unfold write_name, write_name_calls. rewrite <- lower_lowercase, HL.
  replace (bytes_eqb n root_name) with false by (symmetry; apply bytes_eqb_neq; auto).
  unfold dot. induction (split_on 46 n); [reflexivity|]. cbn. rewrite IHl. reflexivity.
Qed.

Lemma wire_labels_app a b : wire_labels (a ++ b) = wire_labels a ++ wire_labels b.
Proof. unfold wire_labels. apply flat_map_app. Qed.

(** The general form: also for names with empty labels. *)
Lemma write_name_dots ls : Forall label_ok ls -> ls <> [[]] -> ls <> [] -> lower (dots ls) = dots ls ->
  write_name (dots ls) = wire_name ls.
Proof.
  intros H Hr Hn HL. assert (Hd := labels_ok_nodot _ H).
  rewrite write_calls_nonroot; auto.
  - rewrite split_dots by auto. rewrite flat_map_app. cbn [flat_map]. unfold wire_name, wire_labels. f_equal.
    clear Hr Hn Hd HL. induction H; [reflexivity|]. cbn. rewrite IHForall. f_equal.
    apply as_u8_small. destruct H. unfold len. lia.
  - intros E. apply Hr. apply dots_root; auto.
Qed.

Lemma write_name_proper ls : Forall (fun l => l <> [] /\ label_ok l) ls -> lower (dotted ls) = dotted ls ->
  write_name (dotted ls) = wire_name ls.
Proof.
  intros H HL. destruct ls as [|l ls]; [reflexivity|].
  apply write_name_dots; auto; try congruence.
  - eapply Forall_impl; [|exact H]. cbn; tauto.
  - intros E. injection E as -> ->. inversion H; subst. tauto.
Qed.

Lemma name_len_wire_gen ls : (length (dots ls) <= 255)%nat -> Forall label_ok ls -> ls <> [[]] -> ls <> [] ->
  name_len (dots ls) = len (wire_name ls).
Proof.
  intros HL H Hr Hn. assert (Hd := labels_ok_nodot _ H). unfold name_len.
  replace (bytes_eqb (dots ls) root_name) with false.
  2:{ symmetry. apply bytes_eqb_neq. intros E. apply Hr. apply dots_root; auto. }
  unfold dot. rewrite split_dots by auto.
  assert (F : forall ls a, fold_left (fun acc label => acc + (1 + len label)) ls a = a + len (wire_labels ls)).
  { clear. induction ls; intros acc; [cbn; lia|]. cbn [fold_left]. rewrite IHls.
    change (wire_labels (a :: ls)) with ((len a :: a) ++ wire_labels ls).
    rewrite len_app, len_cons. lia. }
  rewrite F. rewrite wire_labels_app. unfold wire_name.
  change (wire_labels [[]]) with [0]. rewrite N.add_0_l.
  apply as_u16_small.
  assert (len (wire_labels ls) = len (dots ls)).
  { clear. induction ls; [reflexivity|]. rewrite dots_cons.
    change (wire_labels (a :: ls)) with ((len a :: a) ++ wire_labels ls).
    rewrite !len_app, !len_cons, IHls. lia. }
  rewrite len_app. change (len [0]) with 1. unfold len in *. lia.
Qed.

Lemma name_len_proper ls : proper ls -> lower (dotted ls) = dotted ls ->
  name_len (dotted ls) = len (write_name (dotted ls)).
Proof.
  intros [H HL] Hl. rewrite write_name_proper by auto. destruct ls as [|l ls]; [reflexivity|].
  apply name_len_wire_gen; auto; try congruence.
  - eapply Forall_impl; [|exact H]. cbn; tauto.
  - intros E. injection E as -> ->. inversion H; subst. tauto.
Qed.

Lemma NameEnc_wire pkt ls rest : Forall (fun l => l <> [] /\ label_ok l) ls ->
  NameEnc pkt 255 (wire_name ls ++ rest) (dots ls) rest.
Proof.
  intros H. induction H as [|l ls [Hl [Hlen Hc]] Hls IH].
  - constructor.
  - unfold wire_name. cbn [wire_labels flat_map app]. rewrite dots_cons, <- !app_assoc.
    apply NE_label; auto.
    + destruct l; [congruence|]. cbn [length]. lia.
    + left. lia.
    + unfold wire_name in IH. rewrite <- app_assoc in IH. exact IH.
Qed.

Lemma name_roundtrip n pkt rest : proper_name n ->
  read_wire_packet_name (write_name n ++ rest) pkt = Ok (n, rest).
Proof.
  intros (ls & [H HL] & -> & Hlow). apply read_name_spec. exists (dots ls).
  rewrite write_name_proper by auto.
  split; [apply NameEnc_wire; auto|].
  assert (E : text_or_root (dots ls) = dotted ls).
  { destruct ls as [|l ls]; [reflexivity|]. cbn [dotted]. rewrite dots_cons. destruct l; reflexivity. }
  rewrite E. split; [|congruence].
  destruct ls as [|l ls].
  - exists [[]]. repeat split; try congruence; repeat constructor; cbn; lia.
  - exists (l :: ls). repeat split; try congruence; auto. eapply Forall_impl; [|exact H]. cbn; tauto.
Qed.

Lemma write_name_len n : proper_name n -> len (write_name n) = name_len n.
Proof. intros (ls & H & -> & Hlow). symmetry. apply name_len_proper; auto. Qed.

Lemma proper_name_valid n : proper_name n -> valid_name n.
Proof.
  intros (ls & [H HL] & -> & Hlow). apply valid_name_spec. split; auto.
  destruct ls as [|l ls].
  - exists [[]]. repeat split; try congruence; repeat constructor; cbn; lia.
  - exists (l :: ls). repeat split; try congruence; auto. eapply Forall_impl; [|exact H]. cbn; tauto.
Qed.

(** A valid name is proper exactly when it has no empty inner label, i.e. it is the root or contains
    no two consecutive dots and no leading dot. *)
Fixpoint no_empty_label (prev_dot : bool) (s : bytes) : bool :=
  match s with
  | [] => true
  | c :: t => if c =? 46 then negb prev_dot && no_empty_label true t else no_empty_label false t
  end.
Lemma no_empty_label_skip l s : nodot l -> l <> [] -> no_empty_label true (l ++ s) = no_empty_label false s
  /\ no_empty_label false (l ++ s) = no_empty_label false s.
Proof.
  intros Hn. assert (W : forall b c l, nodot (c :: l) -> no_empty_label b ((c :: l) ++ s) = no_empty_label false s).
  { intros b c l' H. revert b c H. induction l' as [|d l' IH]; intros b c H; cbn in *;
      (destruct (c =? 46) eqn:E; [apply N.eqb_eq in E; subst; exfalso; apply H; left; reflexivity|]).
    - reflexivity.
    - apply (IH false d). intros Hi. apply H. right. exact Hi. }
  destruct l; [congruence|]. intros _. split; apply W; auto.
Qed.
Lemma no_empty_label_dots ls : Forall nodot ls -> (no_empty_label true (dots ls) = true <-> Forall (fun l => l <> []) ls).
Proof.
  induction 1 as [|l ls Hl Hls IH]; [cbn; split; auto|]. rewrite dots_cons. destruct l as [|c l].
  - cbn. split; [discriminate|]. intros F. inversion F; congruence.
  - destruct (no_empty_label_skip (c :: l) (46 :: dots ls) Hl ltac:(congruence)) as [-> _].
    cbn. rewrite IH. split; intros F; [constructor; auto; congruence | inversion F; auto].
Qed.
Lemma proper_name_iff n : valid_name n -> (proper_name n <-> n = [46] \/ no_empty_label true n = true).
Proof.
  intros Hv. apply valid_name_spec in Hv as [(ls & H1 & -> & H3 & H4) HL].
  assert (Hd := labels_ok_nodot _ H3). split.
  - intros (ls' & [H HL'] & E & _). destruct ls' as [|l' ls'].
    + left. exact E.
    + right. cbn [dotted] in E. apply dots_inj in E; auto.
      2:{ eapply Forall_impl; [|exact H]. cbn. intros a [_ ?]. apply label_ok_nodot; auto. }
      rewrite E. apply no_empty_label_dots.
      * eapply Forall_impl; [|exact H]. cbn. intros a [_ ?]. apply label_ok_nodot; auto.
      * eapply Forall_impl; [|exact H]. cbn. tauto.
  - intros [E|E].
    + exists []. split; [|split; auto]. split; [constructor|]. cbn. lia.
    + apply no_empty_label_dots in E; auto. exists ls.
      assert (D : dotted ls = dots ls) by (destruct ls; [congruence|reflexivity]).
      split; [split|split]; rewrite ?D; auto.
      rewrite Forall_forall in *. intros l Hl. split; auto.
Qed.
