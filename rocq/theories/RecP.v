(** Proofs about record parsing and writing (C05, C07-C10, C13). *)
From Verif Require Import Base NameM NameSpec WireSpec BitmapSpec BaseP WireM RRM SerM RecSpec NameP WireP BitmapP.
From Coq Require Import Arith.
Local Open Scope N_scope.

(** ** Integers *)
Lemma read_u16_app n r : read_u16 (u16 n ++ r) = Ok (n, r).
Proof. cbn. pose proof (N.div_mod n 256). f_equal. f_equal. lia. Qed.
Lemma read_u32_app n r : read_u32 (u32 n ++ r) = Ok (n, r).
Proof.
  cbn. f_equal. f_equal.
  pose proof (N.div_mod n 256). pose proof (N.div_mod (n / 256) 256). pose proof (N.div_mod (n / 65536) 256).
  rewrite N.div_div in * by discriminate. change (256 * 256) with 65536 in *. change (65536 * 256) with 16777216 in *. lia.
Qed.
Lemma read_u16_inv inp n rest : bytes_ok inp = true -> read_u16 inp = Ok (n, rest) -> inp = u16 n ++ rest.
Proof.
  intros Hb H. destruct inp as [|a [|b t]]; try discriminate. cbn in H. injection H as <- <-.
  apply bytes_ok_forall in Hb. inversion Hb; subst. inversion H2; subst.
  unfold u16. rewrite N.div_add_l, N.div_small, N.add_0_r by lia.
  rewrite N.add_comm, N.mod_add, N.mod_small by lia. reflexivity.
Qed.
Lemma u32_value a b c d : a < 256 -> b < 256 -> c < 256 -> d < 256 ->
  u32 (a * 16777216 + b * 65536 + c * 256 + d) = [a; b; c; d].
Proof.
  intros. unfold u32.
  assert (E1 : (a * 16777216 + b * 65536 + c * 256 + d) / 256 = a * 65536 + b * 256 + c).
  { symmetry. apply N.div_unique with d; lia. }
  assert (E2 : (a * 16777216 + b * 65536 + c * 256 + d) / 65536 = a * 256 + b).
  { symmetry. apply N.div_unique with (c * 256 + d); lia. }
  assert (E3 : (a * 16777216 + b * 65536 + c * 256 + d) / 16777216 = a).
  { symmetry. apply N.div_unique with (b * 65536 + c * 256 + d); lia. }
  rewrite E1, E2, E3. f_equal. f_equal; [|f_equal; [|f_equal]]; symmetry.
  - apply N.mod_unique with a; lia.
  - apply N.mod_unique with (a * 256 + b); lia.
  - apply N.mod_unique with (a * 65536 + b * 256 + c); lia.
Qed.
Lemma read_u32_inv inp n rest : bytes_ok inp = true -> read_u32 inp = Ok (n, rest) -> inp = u32 n ++ rest.
Proof.
  intros Hb H. destruct inp as [|a [|b [|c [|d t]]]]; try discriminate. cbn [read_u32] in H. injection H as <- <-.
  apply bytes_ok_forall in Hb.
  inversion Hb; subst. inversion H2; subst. inversion H4; subst. inversion H6; subst.
  rewrite u32_value by auto. reflexivity.
Qed.
Lemma be16_u16 n : n < 65536 -> be16 n = u16 n.
Proof. intros. unfold be16, u16. rewrite (N.mod_small (n / 256)); auto. apply N.div_lt_upper_bound; lia. Qed.
Lemma be32_u32 n : n < 4294967296 -> be32 n = u32 n.
Proof. intros. unfold be32, u32. rewrite (N.mod_small (n / 16777216)); auto. apply N.div_lt_upper_bound; lia. Qed.
Lemma u16_len n : length_of (u16 n) = 2. Proof. reflexivity. Qed.
Lemma bytes_ok_app_inv a b : bytes_ok (a ++ b) = true -> bytes_ok a = true /\ bytes_ok b = true.
Proof. rewrite bytes_ok_app. apply andb_true_iff. Qed.
Lemma bytes_ok_cons_inv x b : bytes_ok (x :: b) = true -> x < 256 /\ bytes_ok b = true.
Proof. cbn. rewrite andb_true_iff. unfold byte_ok. rewrite N.ltb_lt. auto. Qed.

(** ** Names inside a packet *)
Lemma NameEnc_frame pkt d inp text rest more : NameEnc pkt d inp text rest -> NameEnc pkt d (inp ++ more) text (rest ++ more).
Proof.
  induction 1.
  - constructor.
  - rewrite <- app_comm_cons, <- app_assoc. constructor; auto.
  - econstructor; eauto.
Qed.
Lemma NameEnc_split pkt d inp text rest : NameEnc pkt d inp text rest ->
  exists b, inp = b ++ rest /\ NameEnc pkt d b text [].
Proof.
  induction 1.
  - exists [0]. split; [reflexivity|constructor].
  - destruct IHNameEnc as (b & -> & Hb). exists (l :: content ++ b). split.
    + cbn. rewrite <- app_assoc. reflexivity.
    + constructor; auto.
  - exists [hi; lo]. split; [reflexivity|]. econstructor; eauto.
Qed.
Lemma read_name_in inp pkt n rest :
  read_wire_packet_name inp pkt = Ok (n, rest) <-> exists b, inp = b ++ rest /\ NameIn pkt b n.
Proof.
  rewrite read_name_spec. split.
  - intros (text & H1 & H2 & H3). apply NameEnc_split in H1 as (b & -> & Hb). exists b. split; auto. exists text. auto.
  - intros (b & -> & text & H1 & H2 & H3). exists text. split; auto.
    apply NameEnc_frame with (more := rest) in H1. exact H1.
Qed.
Lemma read_name_app pkt b n rest : NameIn pkt b n -> read_wire_packet_name (b ++ rest) pkt = Ok (n, rest).
Proof. intros. apply read_name_in. eauto. Qed.

Lemma NameEnc_nil_plain d inp text rest : NameEnc [] (S d) inp text rest ->
  exists ls, Forall (fun l => (1 <= List.length l <= 191)%nat) ls /\ inp = wire_name ls ++ rest /\ text = dots ls.
Proof.
  remember (S d) as d'. induction 1; subst.
  - exists []. auto.
  - destruct IHNameEnc as (ls & H1' & -> & ->); auto. exists (content :: ls). repeat split.
    + constructor; auto. lia.
    + unfold wire_name. cbn. rewrite <- !app_assoc. reflexivity.
    + rewrite dots_cons. reflexivity.
  - cbn in H0. lia.
Qed.
Lemma plain_NameEnc pkt d ls rest : Forall (fun l => (1 <= List.length l <= 191)%nat) ls ->
  NameEnc pkt d (wire_name ls ++ rest) (dots ls) rest.
Proof.
  induction 1.
  - constructor.
  - unfold wire_name. cbn [wire_labels flat_map app]. rewrite dots_cons, <- !app_assoc. constructor; try lia.
    unfold wire_name in IHForall. rewrite <- app_assoc in IHForall. exact IHForall.
Qed.
Lemma NameIn_plain b n : NameIn [] b n <-> NamePlain b n.
Proof.
  split.
  - intros (text & H1 & H2 & ->). apply NameEnc_nil_plain in H1 as (ls & H3 & -> & ->).
    exists ls. rewrite app_nil_r. auto.
  - intros (ls & H1 & -> & H3 & ->). exists (dots ls). split; auto.
    rewrite <- (app_nil_r (wire_name ls)). apply plain_NameEnc. auto.
Qed.

(** ** RDATA *)
Lemma txt_read_sound fuel : forall data p q, txt_read_loop fuel data p = Ok q ->
  exists strs, data = flat_map (fun s => length_of s :: s) strs /\ q = p ++ concat strs.
Proof.
  induction fuel; intros [|l t] p q H; cbn [txt_read_loop] in H; try discriminate.
  - injection H as <-. exists []. split; auto. cbn. rewrite app_nil_r. auto.
  - injection H as <-. exists []. split; auto. cbn. rewrite app_nil_r. auto.
  - destruct (len t <? l) eqn:E; [discriminate|]. apply N.ltb_ge in E.
    apply IHfuel in H as (strs & H1 & ->). exists (takeN l t :: strs). split.
    + cbn [flat_map app]. rewrite <- H1. change (length_of (takeN l t)) with (len (takeN l t)).
      rewrite len_takeN by auto. rewrite takeN_dropN. reflexivity.
    + cbn [concat]. rewrite app_assoc. reflexivity.
Qed.
Lemma txt_read_complete strs : forall fuel p,
  (List.length (flat_map (fun s => length_of s :: s) strs) <= fuel)%nat ->
  txt_read_loop fuel (flat_map (fun s => length_of s :: s) strs) p = Ok (p ++ concat strs).
Proof.
  induction strs as [|s strs IH]; intros fuel p Hf.
  - cbn. rewrite app_nil_r. destruct fuel; reflexivity.
  - cbn [flat_map] in *. rewrite <- app_comm_cons in *. destruct fuel; [cbn in Hf; lia|]. cbn [txt_read_loop].
    change (length_of s) with (len s).
    replace (len (s ++ flat_map (fun s => length_of s :: s) strs) <? len s) with false
      by (symmetry; apply N.ltb_ge; rewrite len_app; lia).
    rewrite takeN_app_len, dropN_app_len, IH.
    + cbn [concat]. rewrite app_assoc. reflexivity.
    + cbn [List.length] in Hf. rewrite app_length in Hf. lia.
Qed.
Lemma txt_read_no_crash fuel : forall data p, (List.length data <= fuel)%nat -> no_crash (txt_read_loop fuel data p).
Proof.
  unfold no_crash. induction fuel; intros [|l t] p Hf; cbn [txt_read_loop]; try (split; discriminate).
  - cbn in Hf. lia.
  - destruct (len t <? l); [split; discriminate|]. apply IHfuel. cbn in Hf. unfold dropN. rewrite skipn_length. lia.
Qed.

Lemma read_lp_app b r : read_u8_len_prefixed_bytes (length_of b :: b ++ r) = Ok (b, r).
Proof.
  cbn. change (length_of b) with (len b).
  replace (len (b ++ r) <? len b) with false by (symmetry; apply N.ltb_ge; rewrite len_app; lia).
  rewrite takeN_app_len, dropN_app_len. reflexivity.
Qed.
Lemma read_lp_inv inp b r : read_u8_len_prefixed_bytes inp = Ok (b, r) -> inp = length_of b :: b ++ r.
Proof.
  destruct inp as [|l t]; [discriminate|]. cbn. destruct (len t <? l) eqn:E; [discriminate|]. apply N.ltb_ge in E.
  intros H. injection H as <- <-. change (length_of (takeN l t)) with (len (takeN l t)).
  rewrite len_takeN by auto. rewrite takeN_dropN. reflexivity.
Qed.

Lemma read_u8_inv inp x r : read_u8 inp = Ok (x, r) -> inp = x :: r.
Proof. destruct inp; [discriminate|]. cbn. congruence. Qed.

Ltac obinv H :=
  match type of H with
  | obind _ _ = Ok _ => let a := fresh "a" in let H1 := fresh "H" in
      apply obind_ok in H as (a & H1 & H); repeat (let x := fresh "x" in let y := fresh "y" in destruct a as [x y]);
      obinv H
  | _ => idtac
  end.

Lemma single_name_spec dbg data wire n : read_single_name dbg data wire = Ok n <->
  exists b extra, data = b ++ extra /\ NameIn wire b n /\ (negb dbg = true \/ extra = []).
Proof.
  unfold read_single_name. split.
  - intros H. apply obind_ok in H as ([x y] & H1 & H2). apply read_name_in in H1 as (b & -> & Hb).
    exists b, y. destruct dbg, y; cbn in H2; try discriminate; injection H2 as ->; auto.
  - intros (b & extra & -> & Hn & H). rewrite (read_name_app _ _ _ _ Hn). cbn [obind].
    destruct dbg, extra; cbn; auto. destruct H; discriminate.
Qed.

Lemma read_data_sound dbg ty nm data wire r : bytes_ok data = true ->
  read_data dbg ty nm data wire = Ok r -> RData (NameIn wire) (negb dbg) ty nm r data.
Proof.
  intros Hb H. unfold read_data in H.
  destruct (N.eqb_spec ty T_A) as [->|_].
  { apply obind_ok in H as (x & H & E). injection E as <-. unfold a_read in H.
    destruct (N.eqb_spec (len data) 4); [|discriminate]. injection H as <-. apply RD_A; auto. }
  destruct (N.eqb_spec ty T_AAAA) as [->|_].
  { apply obind_ok in H as (x & H & E). injection E as <-. unfold aaaa_read in H.
    destruct (N.eqb_spec (len data) 16); [|discriminate]. injection H as <-. apply RD_AAAA; auto. }
  destruct (N.eqb_spec ty T_NS) as [->|_].
  { apply obind_ok in H as (x & H & E). injection E as <-. unfold ns_read in H.
    apply obind_ok in H as (c & H & E). injection E as <-.
    apply single_name_spec in H as (b & extra & -> & H1 & H2). apply RD_NS; auto. }
  destruct (N.eqb_spec ty T_TXT) as [->|_].
  { apply obind_ok in H as (x & H & E). injection E as <-. unfold txt_read in H.
    apply obind_ok in H as (c & H & E). injection E as <-.
    apply txt_read_sound in H as (strs & -> & ->). apply RD_Txt. }
  destruct (N.eqb_spec ty T_CNAME) as [->|_].
  { apply obind_ok in H as (x & H & E). injection E as <-. unfold cname_read in H.
    apply obind_ok in H as (c & H & E). injection E as <-.
    apply single_name_spec in H as (b & extra & -> & H1 & H2). apply RD_CName; auto. }
  destruct (N.eqb_spec ty T_DNAME) as [->|_].
  { apply obind_ok in H as (x & H & E). injection E as <-. unfold dname_read in H.
    apply obind_ok in H as (c & H & E). injection E as <-.
    apply single_name_spec in H as (b & extra & -> & H1 & H2). apply RD_DName; auto. }
  destruct (N.eqb_spec ty T_TLSA) as [->|_].
  { apply obind_ok in H as (x & H & E). injection E as <-. unfold tlsa_read in H. obinv H.
    apply read_u8_inv in H0, H1, H2. subst. injection H as <-. apply RD_TLSA. }
  destruct (N.eqb_spec ty T_DNSKEY) as [->|_].
  { apply obind_ok in H as (x & H & E). injection E as <-. unfold dnskey_read in H. obinv H.
    apply read_u16_inv in H0; auto. apply read_u8_inv in H1, H2. subst. injection H as <-. apply RD_DnsKey. }
  destruct (N.eqb_spec ty T_DS) as [->|_].
  { apply obind_ok in H as (x & H & E). injection E as <-. unfold ds_read in H. obinv H.
    apply read_u16_inv in H0; auto. apply read_u8_inv in H1, H2. subst. injection H as <-. apply RD_DS. }
  destruct (N.eqb_spec ty T_RRSIG) as [->|_].
  { apply obind_ok in H as (x & H & E). injection E as <-. unfold rrsig_read in H. obinv H. injection H as <-.
    apply read_u16_inv in H0; auto. subst data. apply bytes_ok_app_inv in Hb as [_ Hb].
    apply read_u8_inv in H1. subst. apply bytes_ok_cons_inv in Hb as [_ Hb].
    apply read_u8_inv in H2. subst. apply bytes_ok_cons_inv in Hb as [_ Hb].
    apply read_u32_inv in H3; auto. subst. apply bytes_ok_app_inv in Hb as [_ Hb].
    apply read_u32_inv in H4; auto. subst. apply bytes_ok_app_inv in Hb as [_ Hb].
    apply read_u32_inv in H5; auto. subst. apply bytes_ok_app_inv in Hb as [_ Hb].
    apply read_u16_inv in H6; auto. subst.
    apply read_name_in in H7 as (b & -> & Hn).
    apply RD_RRSig; auto. }
  destruct (N.eqb_spec ty T_NSEC) as [->|_].
  { apply obind_ok in H as (x & H & E). injection E as <-. unfold nsec_read in H. obinv H. injection H as <-.
    apply read_name_in in H0 as (b & -> & Hn). apply read_bitmap_spec in H1. apply RD_NSec; auto. }
  destruct (N.eqb_spec ty T_NSEC3) as [->|_]; [|discriminate].
  apply obind_ok in H as (x & H & E). injection E as <-. unfold nsec3_read in H. obinv H. injection H as <-.
  apply read_u8_inv in H0. subst. apply bytes_ok_cons_inv in Hb as [_ Hb].
  apply read_u8_inv in H1. subst. apply bytes_ok_cons_inv in Hb as [_ Hb].
  apply read_u16_inv in H2; auto. subst. apply read_lp_inv in H3, H4. subst. apply read_bitmap_spec in H5.
  apply RD_NSec3; auto.
Qed.

Lemma read_data_complete dbg ty nm data wire r :
  RData (NameIn wire) (negb dbg) ty nm r data -> read_data dbg ty nm data wire = Ok r.
Proof.
  intros H. inversion H; subst; unfold read_data; cbn [N.eqb Pos.eqb T_A T_AAAA T_NS T_TXT T_CNAME T_DNAME T_TLSA T_DNSKEY T_DS T_RRSIG T_NSEC T_NSEC3].
  - unfold a_read. change (len data) with (length_of data). rewrite H0. reflexivity.
  - unfold aaaa_read. change (len data) with (length_of data). rewrite H0. reflexivity.
  - unfold ns_read. rewrite (proj2 (single_name_spec dbg (b ++ extra) wire n)); [reflexivity|]. eauto.
  - unfold cname_read. rewrite (proj2 (single_name_spec dbg (b ++ extra) wire n)); [reflexivity|]. eauto.
  - unfold dname_read. rewrite (proj2 (single_name_spec dbg (b ++ extra) wire n)); [reflexivity|]. eauto.
  - unfold txt_read. rewrite txt_read_complete by lia. reflexivity.
  - reflexivity.
  - unfold dnskey_read. rewrite read_u16_app. reflexivity.
  - unfold ds_read. rewrite read_u16_app. reflexivity.
  - unfold rrsig_read. rewrite read_u16_app. cbn [obind read_u8]. rewrite !read_u32_app. cbn [obind].
    rewrite read_u32_app. cbn [obind]. rewrite read_u32_app. cbn [obind]. rewrite read_u16_app. cbn [obind].
    rewrite (read_name_app _ _ _ _ H0). reflexivity.
  - unfold nsec_read. rewrite (read_name_app _ _ _ _ H0). cbn [obind].
    apply read_bitmap_spec in H1. rewrite H1. reflexivity.
  - unfold nsec3_read. cbn [read_u8 obind]. rewrite read_u16_app. cbn [obind]. rewrite read_lp_app. cbn [obind].
    rewrite read_lp_app. cbn [obind]. apply read_bitmap_spec in H0. rewrite H0. reflexivity.
Qed.

Lemma read_data_spec dbg ty nm data wire r : bytes_ok data = true ->
  (read_data dbg ty nm data wire = Ok r <-> RData (NameIn wire) (negb dbg) ty nm r data).
Proof. split; [apply read_data_sound; auto|apply read_data_complete]. Qed.

Lemma RData_owner Nm lax ty o r data : RData Nm lax ty o r data -> rr_name r = o /\ rr_ty r = ty.
Proof. inversion 1; subst; split; reflexivity. Qed.

(** ** Whole records *)
Lemma parse_rr_sound dbg inp wire r ttl rest : bytes_ok inp = true ->
  parse_wire_packet_rr dbg inp wire = Ok (r, ttl, rest) ->
  exists rec, inp = rec ++ rest /\ RecordEnc (NameIn wire) (negb dbg) rec r ttl.
Proof.
  intros Hb H. unfold parse_wire_packet_rr in H.
  apply obind_ok in H as ([nm i0] & H0 & H). apply read_name_in in H0 as (b & -> & Hn).
  apply bytes_ok_app_inv in Hb as [_ Hb].
  apply obind_ok in H as ([ty i1] & H0 & H). apply read_u16_inv in H0; auto. subst. apply bytes_ok_app_inv in Hb as [_ Hb].
  apply obind_ok in H as ([cl i2] & H0 & H). apply read_u16_inv in H0; auto. subst. apply bytes_ok_app_inv in Hb as [_ Hb].
  destruct (N.eqb_spec cl 1) as [->|]; [|discriminate]. cbn [negb] in H.
  apply obind_ok in H as ([tt i3] & H0 & H). apply read_u32_inv in H0; auto. subst. apply bytes_ok_app_inv in Hb as [_ Hb].
  apply obind_ok in H as ([dl i4] & H0 & H). apply read_u16_inv in H0; auto. subst. apply bytes_ok_app_inv in Hb as [_ Hb].
  destruct (len i4 <? dl) eqn:E; [discriminate|]. apply N.ltb_ge in E.
  apply obind_ok in H as (r' & H0 & H). injection H as -> -> <-.
  apply read_data_sound in H0; [|apply bytes_ok_takeN; auto].
  eexists. split; [|econstructor; eauto].
  change (length_of (takeN dl i4)) with (len (takeN dl i4)). rewrite len_takeN by auto.
  rewrite <- !app_assoc, takeN_dropN. reflexivity.
Qed.

Lemma parse_rr_complete dbg wire rec r ttl rest : RecordEnc (NameIn wire) (negb dbg) rec r ttl ->
  parse_wire_packet_rr dbg (rec ++ rest) wire = Ok (r, ttl, rest).
Proof.
  intros H. inversion H; subst. unfold parse_wire_packet_rr. rewrite <- !app_assoc.
  rewrite (read_name_app _ _ _ _ H0). cbn [obind]. rewrite !read_u16_app. cbn [obind]. rewrite read_u16_app.
  cbn [obind]. replace (negb (1 =? 1)) with false by reflexivity. rewrite read_u32_app. cbn [obind].
  rewrite read_u16_app. cbn [obind]. change (length_of data) with (len data).
  replace (len (data ++ rest) <? len data) with false by (symmetry; apply N.ltb_ge; rewrite len_app; lia).
  rewrite takeN_app_len, dropN_app_len. rewrite (read_data_complete _ _ _ _ _ _ H1). reflexivity.
Qed.

Lemma NameIn_nonempty pkt b n : NameIn pkt b n -> b <> [].
Proof. intros (t & H & _). eapply NameEnc_nonempty; eauto. Qed.
Lemma RecordEnc_nonempty wire lax rec r ttl : RecordEnc (NameIn wire) lax rec r ttl -> rec <> [].
Proof. inversion 1; subst. apply NameIn_nonempty in H0. destruct nb; [congruence|discriminate]. Qed.

(** ** Streams *)
Lemma stream_loop_sound dbg fuel : forall inp acc rs, bytes_ok inp = true ->
  parse_stream_loop dbg fuel inp acc = Ok rs ->
  exists rs', rs = acc ++ rs' /\ StreamEnc (NameIn []) (negb dbg) inp rs'.
Proof.
  induction fuel; intros inp acc rs Hb H.
  - destruct inp; [|discriminate]. injection H as <-. exists []. rewrite app_nil_r. split; [auto|constructor].
  - cbn [parse_stream_loop] in H. destruct inp as [|x inp]; [injection H as <-; exists []; rewrite app_nil_r; split; [auto|constructor]|].
    apply obind_ok in H as ([r rest] & H1 & H2). unfold parse_rr in H1. apply obind_ok in H1 as ([[r' ttl] rest'] & H1 & H3).
    injection H3 as -> ->. apply parse_rr_sound in H1 as (rec & E & HR); auto. rewrite E in *.
    apply bytes_ok_app_inv in Hb as [_ Hb]. apply IHfuel in H2 as (rs' & -> & HS); auto.
    exists (r :: rs'). rewrite <- app_assoc. split; auto. econstructor; eauto.
Qed.
Lemma stream_loop_complete dbg inp rs : StreamEnc (NameIn []) (negb dbg) inp rs ->
  forall fuel acc, (List.length inp <= fuel)%nat -> parse_stream_loop dbg fuel inp acc = Ok (acc ++ rs).
Proof.
  induction 1; intros fuel acc Hf.
  - rewrite app_nil_r. destruct fuel; reflexivity.
  - pose proof (RecordEnc_nonempty _ _ _ _ _ H). destruct rec as [|x rec]; [congruence|].
    destruct fuel; [cbn in Hf; lia|]. cbn [parse_stream_loop app]. unfold parse_rr.
    change (x :: rec ++ rest) with ((x :: rec) ++ rest). rewrite (parse_rr_complete _ _ _ _ _ _ H). cbn [obind].
    rewrite IHStreamEnc; [rewrite <- app_assoc; reflexivity|]. cbn in Hf. rewrite app_length in Hf. lia.
Qed.

Lemma RData_ext (Nm Nm' : bytes -> bytes -> Prop) lax ty o r d : (forall b n, Nm b n -> Nm' b n) ->
  RData Nm lax ty o r d -> RData Nm' lax ty o r d.
Proof. intros Hn H. inversion H; subst; constructor; auto. Qed.
Lemma RecordEnc_ext (Nm Nm' : bytes -> bytes -> Prop) lax rec r ttl : (forall b n, Nm b n -> Nm' b n) ->
  RecordEnc Nm lax rec r ttl -> RecordEnc Nm' lax rec r ttl.
Proof. intros Hn H. inversion H; subst. econstructor; eauto. eapply RData_ext; eauto. Qed.
Lemma StreamEnc_ext (Nm Nm' : bytes -> bytes -> Prop) lax inp rs : (forall b n, Nm b n -> Nm' b n) ->
  StreamEnc Nm lax inp rs -> StreamEnc Nm' lax inp rs.
Proof. intros Hn. induction 1; econstructor; eauto. eapply RecordEnc_ext; eauto. Qed.
Lemma RData_lax Nm ty o r d lax : RData Nm false ty o r d -> RData Nm lax ty o r d.
Proof. intros H. inversion H; subst; constructor; auto; right; destruct H1; auto; discriminate. Qed.
Lemma RecordEnc_lax Nm lax rec r ttl : RecordEnc Nm false rec r ttl -> RecordEnc Nm lax rec r ttl.
Proof. inversion 1; subst; econstructor; eauto using RData_lax. Qed.

Lemma parse_stream_spec dbg inp rs : bytes_ok inp = true ->
  (parse_rr_stream dbg inp = Ok rs <-> StreamEnc NamePlain (negb dbg) inp rs).
Proof.
  intros Hb. unfold parse_rr_stream. split.
  - intros H. apply stream_loop_sound in H as (rs' & -> & H); auto.
    eapply StreamEnc_ext; [|exact H]. intros b n. apply NameIn_plain.
  - intros H. rewrite (stream_loop_complete dbg inp rs); auto.
    eapply StreamEnc_ext; [|exact H]. intros b n. apply NameIn_plain.
Qed.
Lemma parse_stream_complete dbg inp rs : StreamEnc NamePlain (negb dbg) inp rs -> parse_rr_stream dbg inp = Ok rs.
Proof.
  intros H. unfold parse_rr_stream. rewrite (stream_loop_complete dbg inp rs); auto.
  eapply StreamEnc_ext; [|exact H]. intros b n. apply NameIn_plain.
Qed.
