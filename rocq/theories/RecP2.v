(** Panics, truncation, writing (C07, C08, C10, C13). *)
From Verif Require Import Base NameM NameSpec WireSpec BitmapSpec BaseP WireM RRM SerM RecSpec NameP WireP BitmapP RecP.
From Coq Require Import Arith.
Local Open Scope N_scope.
Local Arguments N.add : simpl never.
Local Arguments N.mul : simpl never.
Local Arguments N.div : simpl never.
Local Arguments N.modulo : simpl never.
Local Arguments length_of : simpl never.
Local Arguments name_octets : simpl never.
Local Arguments u16 : simpl never.
Local Arguments u32 : simpl never.

Lemma obind_panic {E A B} (m : outcome E A) (k : A -> outcome E B) :
  obind m k = Panic <-> m = Panic \/ exists a, m = Ok a /\ k a = Panic.
Proof.
  destruct m; cbn; split; intros H; try discriminate; eauto.
  - destruct H as [H|(x & H1 & H2)]; congruence.
  - destruct H as [H|(x & H1 & H2)]; congruence.
  - destruct H as [H|(x & H1 & H2)]; congruence.
Qed.
Lemma obind_loop {E A B} (m : outcome E A) (k : A -> outcome E B) :
  obind m k = Loop <-> m = Loop \/ exists a, m = Ok a /\ k a = Loop.
Proof.
  destruct m; cbn; split; intros H; try discriminate; eauto.
  - destruct H as [H|(x & H1 & H2)]; congruence.
  - destruct H as [H|(x & H1 & H2)]; congruence.
  - destruct H as [H|(x & H1 & H2)]; congruence.
Qed.

Lemma read_u8_nc inp : no_crash (read_u8 inp).
Proof. destruct inp; split; discriminate. Qed.
Lemma read_u16_nc inp : no_crash (read_u16 inp).
Proof. destruct inp as [|? [|? ?]]; split; discriminate. Qed.
Lemma read_u32_nc inp : no_crash (read_u32 inp).
Proof. destruct inp as [|? [|? [|? [|? ?]]]]; split; discriminate. Qed.
Lemma read_lp_nc inp : no_crash (read_u8_len_prefixed_bytes inp).
Proof. destruct inp; cbn; [|destruct (len inp <? n)]; split; discriminate. Qed.

Lemma obind_nc {E A B} (m : outcome E A) (k : A -> outcome E B) :
  no_crash m -> (forall a, m = Ok a -> no_crash (k a)) -> no_crash (obind m k).
Proof.
  unfold no_crash. intros [H1 H2] H. destruct m; cbn; auto; try congruence. split; discriminate.
Qed.

Lemma single_name_panic dbg data wire : read_single_name dbg data wire = Panic <->
  dbg = true /\ exists b n x extra, data = b ++ x :: extra /\ NameIn wire b n.
Proof.
  unfold read_single_name. rewrite obind_panic. split.
  - intros [H|([n d] & H1 & H2)]; [exfalso; eapply (proj1 (read_name_no_crash data wire)); eauto|].
    apply read_name_in in H1 as (b & -> & Hb). destruct dbg, d; cbn in H2; try discriminate. eauto 10.
  - intros (-> & b & n & x & extra & -> & Hb). right. exists (n, x :: extra).
    split; [apply read_name_app; auto|reflexivity].
Qed.
Lemma single_name_loop dbg data wire : read_single_name dbg data wire <> Loop.
Proof.
  unfold read_single_name. intros H. apply obind_loop in H as [H|([n d] & H1 & H2)].
  - eapply (proj2 (read_name_no_crash data wire)); eauto.
  - destruct (dbg && negb (is_nil d)); discriminate.
Qed.

Lemma read_bitmap_panic inp : read_nsec_types_bitmap inp = Panic <-> BadBitmap inp.
Proof. apply read_bitmap_outcome. auto. Qed.
Lemma read_bitmap_loop_free inp : read_nsec_types_bitmap inp <> Loop.
Proof. apply read_bitmap_outcome. auto. Qed.

Lemma nc_panic {E A} (m : outcome E A) : no_crash m -> m = Panic -> False.
Proof. intros [H _]; auto. Qed.
Lemma nc_loop {E A} (m : outcome E A) : no_crash m -> m = Loop -> False.
Proof. intros [_ H]; auto. Qed.

Lemma nsec_read_panic nm data wire : nsec_read nm data wire = Panic <->
  exists b n bits, NameIn wire b n /\ BadBitmap bits /\ data = b ++ bits.
Proof.
  unfold nsec_read. rewrite obind_panic. split.
  - intros [H|([n d] & H1 & H2)]; [exfalso; eapply nc_panic; [apply read_name_no_crash|eauto]|].
    apply read_name_in in H1 as (b & -> & Hb). apply obind_panic in H2 as [H2|(a & _ & H2)]; [|discriminate].
    apply read_bitmap_panic in H2. eauto 10.
  - intros (b & n & bits & H1 & H2 & ->). right. exists (n, bits). split; [apply read_name_app; auto|].
    apply obind_panic. left. apply read_bitmap_panic. auto.
Qed.

Lemma nsec3_read_panic nm data : bytes_ok data = true -> (nsec3_read nm data = Panic <->
  exists al fl it salt nh bits, BadBitmap bits /\
    data = al :: fl :: u16 it ++ length_of salt :: salt ++ length_of nh :: nh ++ bits).
Proof.
  intros Hb. unfold nsec3_read. split.
  - intros H.
    apply obind_panic in H as [H|([al d0] & H1 & H)]; [exfalso; eapply nc_panic; [apply read_u8_nc|eauto]|].
    apply read_u8_inv in H1. subst. apply bytes_ok_cons_inv in Hb as [_ Hb].
    apply obind_panic in H as [H|([fl d1] & H1 & H)]; [exfalso; eapply nc_panic; [apply read_u8_nc|eauto]|].
    apply read_u8_inv in H1. subst. apply bytes_ok_cons_inv in Hb as [_ Hb].
    apply obind_panic in H as [H|([it d2] & H1 & H)]; [exfalso; eapply nc_panic; [apply read_u16_nc|eauto]|].
    apply read_u16_inv in H1; auto. subst.
    apply obind_panic in H as [H|([sa d3] & H1 & H)]; [exfalso; eapply nc_panic; [apply read_lp_nc|eauto]|].
    apply read_lp_inv in H1. subst.
    apply obind_panic in H as [H|([nh d4] & H1 & H)]; [exfalso; eapply nc_panic; [apply read_lp_nc|eauto]|].
    apply read_lp_inv in H1. subst.
    apply obind_panic in H as [H|(m & _ & H)]; [|discriminate].
    apply read_bitmap_panic in H. do 6 eexists. split; [exact H|reflexivity].
  - intros (al & fl & it & salt & nh & bits & H & ->). cbn [read_u8 obind]. rewrite read_u16_app. cbn [obind].
    rewrite read_lp_app. cbn [obind]. rewrite read_lp_app. cbn [obind].
    apply obind_panic. left. apply read_bitmap_panic. auto.
Qed.

Lemma nsec_read_loop nm data wire : nsec_read nm data wire <> Loop.
Proof.
  unfold nsec_read. intros H.
  apply obind_loop in H as [H|([n d] & H1 & H)]; [eapply nc_loop; [apply read_name_no_crash|eauto]|].
  apply obind_loop in H as [H|(m & _ & H)]; [eapply read_bitmap_loop_free; eauto|discriminate].
Qed.
Lemma nsec3_read_loop nm data : nsec3_read nm data <> Loop.
Proof.
  unfold nsec3_read. intros H.
  apply obind_loop in H as [H|([? ?] & _ & H)]; [eapply nc_loop; [apply read_u8_nc|eauto]|].
  apply obind_loop in H as [H|([? ?] & _ & H)]; [eapply nc_loop; [apply read_u8_nc|eauto]|].
  apply obind_loop in H as [H|([? ?] & _ & H)]; [eapply nc_loop; [apply read_u16_nc|eauto]|].
  apply obind_loop in H as [H|([? ?] & _ & H)]; [eapply nc_loop; [apply read_lp_nc|eauto]|].
  apply obind_loop in H as [H|([? ?] & _ & H)]; [eapply nc_loop; [apply read_lp_nc|eauto]|].
  apply obind_loop in H as [H|(m & _ & H)]; [eapply read_bitmap_loop_free; eauto|discriminate].
Qed.

Ltac nc := repeat (apply obind_nc; [first [apply read_u8_nc | apply read_u16_nc | apply read_u32_nc
  | apply read_name_no_crash | apply txt_read_no_crash; lia] | let a := fresh in let H := fresh in intros a H; repeat (let x := fresh in let y := fresh in destruct a as [x y])]);
  try (split; discriminate).

Lemma ok_panic {E A B} (m : outcome E A) (f : A -> B) : (a <- m ;; Ok (f a)) = Panic <-> m = Panic.
Proof. rewrite obind_panic. split; [intros [H|(a & _ & H)]; [auto|discriminate]|auto]. Qed.
Lemma ok_loop {E A B} (m : outcome E A) (f : A -> B) : (a <- m ;; Ok (f a)) = Loop <-> m = Loop.
Proof. rewrite obind_loop. split; [intros [H|(a & _ & H)]; [auto|discriminate]|auto]. Qed.

Lemma a_read_nc nm data : no_crash (a_read nm data).
Proof. unfold a_read. destruct (negb _); split; discriminate. Qed.
Lemma aaaa_read_nc nm data : no_crash (aaaa_read nm data).
Proof. unfold aaaa_read. destruct (negb _); split; discriminate. Qed.
Lemma txt_read_nc nm data : no_crash (txt_read nm data).
Proof. unfold txt_read. nc. Qed.
Lemma tlsa_read_nc nm data : no_crash (tlsa_read nm data).
Proof. unfold tlsa_read. nc. Qed.
Lemma dnskey_read_nc nm data : no_crash (dnskey_read nm data).
Proof. unfold dnskey_read. nc. Qed.
Lemma ds_read_nc nm data : no_crash (ds_read nm data).
Proof. unfold ds_read. nc. Qed.
Lemma rrsig_read_nc nm data wire : no_crash (rrsig_read nm data wire).
Proof. unfold rrsig_read. nc. Qed.

Lemma not_bad Nm dbg ty data : ~ In ty [2; 5; 39; 47; 50] -> ~ BadData Nm dbg ty data.
Proof.
  intros H [[_ Hb]|Hb]; inversion Hb; subst; apply H; cbn; lia.
Qed.

Ltac type_case ty T := let H := fresh "Hne" in destruct (N.eqb_spec ty T) as [->|H].

Lemma read_data_crash dbg ty nm data wire : bytes_ok data = true ->
  (read_data dbg ty nm data wire = Panic <-> BadData (NameIn wire) dbg ty data) /\
  read_data dbg ty nm data wire <> Loop.
Proof.
  intros Hb. unfold read_data.
  assert (Hnc : forall {A} (m : outcome unit A) (f : A -> RR) t, no_crash m -> ~ In t [2;5;39;47;50] ->
     ((a <- m ;; Ok (f a)) = Panic <-> BadData (NameIn wire) dbg t data) /\ (a <- m ;; Ok (f a)) <> Loop).
  { intros A m f t Hm Ht. split.
    - rewrite ok_panic. split; intros H; exfalso; [eapply nc_panic; eauto|eapply not_bad; eauto].
    - intros H. apply ok_loop in H. eapply nc_loop; eauto. }
  assert (Hnm : forall {A} (mk : name -> A) (f : A -> RR) t, t = 2 \/ t = 5 \/ t = 39 ->
     ((a <- (c <- read_single_name dbg data wire ;; Ok (mk c)) ;; Ok (f a)) = Panic <-> BadData (NameIn wire) dbg t data)
     /\ (a <- (c <- read_single_name dbg data wire ;; Ok (mk c)) ;; Ok (f a)) <> Loop).
  { intros A mk f t Ht. split.
    - rewrite !ok_panic, single_name_panic. split.
      + intros (-> & b & n & x & extra & -> & Hn). left. split; auto. econstructor; eauto.
      + intros [[-> H]|H]; [|exfalso; inversion H; subst; destruct Ht as [|[|]]; discriminate].
        split; auto. inversion H; subst. eauto 10.
    - intros H. apply ok_loop in H. apply ok_loop in H. eapply single_name_loop; eauto. }
  type_case ty T_A. { apply Hnc; [apply a_read_nc|cbn; unfold T_A; lia]. }
  type_case ty T_AAAA. { apply Hnc; [apply aaaa_read_nc|cbn; unfold T_AAAA; lia]. }
  type_case ty T_NS. { apply Hnm. auto. }
  type_case ty T_TXT. { apply Hnc; [apply txt_read_nc|cbn; unfold T_TXT; lia]. }
  type_case ty T_CNAME. { apply Hnm. auto. }
  type_case ty T_DNAME. { apply Hnm. auto. }
  type_case ty T_TLSA. { apply Hnc; [apply tlsa_read_nc|cbn; unfold T_TLSA; lia]. }
  type_case ty T_DNSKEY. { apply Hnc; [apply dnskey_read_nc|cbn; unfold T_DNSKEY; lia]. }
  type_case ty T_DS. { apply Hnc; [apply ds_read_nc|cbn; unfold T_DS; lia]. }
  type_case ty T_RRSIG. { apply Hnc; [apply rrsig_read_nc|cbn; unfold T_RRSIG; lia]. }
  type_case ty T_NSEC.
  { split; [|intros H; apply ok_loop in H; eapply nsec_read_loop; eauto].
    rewrite ok_panic, nsec_read_panic. split.
    - intros (b & n & bits & H1 & H2 & ->). right. econstructor; eauto.
    - intros [[_ H]|H]; inversion H; subst; [destruct H1 as [|[|]]; discriminate|eauto 10]. }
  type_case ty T_NSEC3.
  { split; [|intros H; apply ok_loop in H; eapply nsec3_read_loop; eauto].
    rewrite ok_panic, nsec3_read_panic by auto. split.
    - intros (al & fl & it & salt & nh & bits & H & ->). right. constructor; auto.
    - intros [[_ H]|H]; inversion H; subst; [destruct H1 as [|[|]]; discriminate|eauto 10]. }
  split; [|discriminate]. split; [discriminate|]. intros H. exfalso.
  eapply not_bad; [|exact H]. unfold T_NS, T_CNAME, T_DNAME, T_NSEC, T_NSEC3 in *. cbn. lia.
Qed.

Lemma parse_packet_crash dbg inp wire : bytes_ok inp = true ->
  (parse_wire_packet_rr dbg inp wire = Panic <->
   exists rec rest, inp = rec ++ rest /\ BadRecord (NameIn wire) dbg rec) /\
  parse_wire_packet_rr dbg inp wire <> Loop.
Proof.
  intros Hb. split; [split|].
  - intros H. unfold parse_wire_packet_rr in H.
    apply obind_panic in H as [H|([nm i0] & H0 & H)]; [exfalso; eapply nc_panic; [apply read_name_no_crash|eauto]|].
    apply read_name_in in H0 as (b & -> & Hn).
    apply bytes_ok_app_inv in Hb as [_ Hb].
    apply obind_panic in H as [H|([ty i1] & H0 & H)]; [exfalso; eapply nc_panic; [apply read_u16_nc|eauto]|].
    apply read_u16_inv in H0; auto. subst. apply bytes_ok_app_inv in Hb as [_ Hb].
    apply obind_panic in H as [H|([cl i2] & H0 & H)]; [exfalso; eapply nc_panic; [apply read_u16_nc|eauto]|].
    apply read_u16_inv in H0; auto. subst. apply bytes_ok_app_inv in Hb as [_ Hb].
    destruct (N.eqb_spec cl 1) as [->|]; [|discriminate]. cbn [negb] in H.
    apply obind_panic in H as [H|([ttl i3] & H0 & H)]; [exfalso; eapply nc_panic; [apply read_u32_nc|eauto]|].
    apply read_u32_inv in H0; auto. subst. apply bytes_ok_app_inv in Hb as [_ Hb].
    apply obind_panic in H as [H|([dl i4] & H0 & H)]; [exfalso; eapply nc_panic; [apply read_u16_nc|eauto]|].
    apply read_u16_inv in H0; auto. subst. apply bytes_ok_app_inv in Hb as [_ Hb].
    destruct (len i4 <? dl) eqn:E; [discriminate|]. apply N.ltb_ge in E.
    apply ok_panic in H. apply read_data_crash in H; [|apply bytes_ok_takeN; auto].
    eexists _, (dropN dl i4). split; [|econstructor; [exact Hn|exact H]].
    change (length_of (takeN dl i4)) with (len (takeN dl i4)). rewrite len_takeN by auto.
    rewrite <- !app_assoc, takeN_dropN. reflexivity.
  - intros (rec & rest & -> & H). inversion H; subst. unfold parse_wire_packet_rr. rewrite <- !app_assoc in *.
    rewrite (read_name_app _ _ _ _ H0). cbn [obind]. rewrite !read_u16_app. cbn [obind]. rewrite read_u16_app.
    cbn [obind]. replace (negb (1 =? 1)) with false by reflexivity. rewrite read_u32_app. cbn [obind].
    rewrite read_u16_app. cbn [obind]. change (length_of data) with (len data).
    replace (len (data ++ rest) <? len data) with false by (symmetry; apply N.ltb_ge; rewrite len_app; lia).
    rewrite takeN_app_len, dropN_app_len. apply ok_panic. apply read_data_crash; auto.
    do 5 apply bytes_ok_app_inv in Hb as [_ Hb]. apply bytes_ok_app_inv in Hb. tauto.
  - intros H. unfold parse_wire_packet_rr in H.
    apply obind_loop in H as [H|([nm i0] & H0 & H)]; [exfalso; eapply nc_loop; [apply read_name_no_crash|eauto]|].
    apply read_name_in in H0 as (b & -> & Hn). apply bytes_ok_app_inv in Hb as [_ Hb].
    apply obind_loop in H as [H|([ty i1] & H0 & H)]; [exfalso; eapply nc_loop; [apply read_u16_nc|eauto]|].
    apply read_u16_inv in H0; auto. subst. apply bytes_ok_app_inv in Hb as [_ Hb].
    apply obind_loop in H as [H|([cl i2] & H0 & H)]; [exfalso; eapply nc_loop; [apply read_u16_nc|eauto]|].
    apply read_u16_inv in H0; auto. subst. apply bytes_ok_app_inv in Hb as [_ Hb].
    destruct (N.eqb_spec cl 1) as [->|]; [|discriminate]. cbn [negb] in H.
    apply obind_loop in H as [H|([ttl i3] & H0 & H)]; [exfalso; eapply nc_loop; [apply read_u32_nc|eauto]|].
    apply read_u32_inv in H0; auto. subst. apply bytes_ok_app_inv in Hb as [_ Hb].
    apply obind_loop in H as [H|([dl i4] & H0 & H)]; [exfalso; eapply nc_loop; [apply read_u16_nc|eauto]|].
    apply read_u16_inv in H0; auto. subst. apply bytes_ok_app_inv in Hb as [_ Hb].
    destruct (len i4 <? dl) eqn:E; [discriminate|].
    apply ok_loop in H. apply read_data_crash in H; auto. apply bytes_ok_takeN. auto.
Qed.

Lemma parse_rr_panic dbg inp : bytes_ok inp = true ->
  (parse_rr dbg inp = Panic <-> exists rec rest, inp = rec ++ rest /\ BadRecord (NameIn []) dbg rec)
  /\ parse_rr dbg inp <> Loop.
Proof.
  intros Hb. destruct (parse_packet_crash dbg inp [] Hb) as [H1 H2]. unfold parse_rr. split.
  - rewrite <- H1. rewrite obind_panic. split.
    + intros [H|([[? ?] ?] & _ & H)]; [auto|discriminate].
    + auto.
  - intros H. apply obind_loop in H as [H|([[? ?] ?] & _ & H)]; [auto|discriminate].
Qed.

Lemma parse_rr_ok dbg inp r rest : bytes_ok inp = true -> (parse_rr dbg inp = Ok (r, rest) <->
  exists rec ttl, inp = rec ++ rest /\ RecordEnc (NameIn []) (negb dbg) rec r ttl).
Proof.
  intros Hb. unfold parse_rr. split.
  - intros H. apply obind_ok in H as ([[r' ttl] rest'] & H1 & H2). injection H2 as -> ->.
    apply parse_rr_sound in H1 as (rec & E & HR); auto. eauto.
  - intros (rec & ttl & -> & H). rewrite (parse_rr_complete _ _ _ _ _ _ H). reflexivity.
Qed.

Lemma stream_loop_no_loop dbg fuel : forall inp acc, bytes_ok inp = true -> (List.length inp <= fuel)%nat ->
  parse_stream_loop dbg fuel inp acc <> Loop.
Proof.
  induction fuel; intros [|x inp] acc Hb Hf; cbn [parse_stream_loop]; try discriminate.
  - cbn in Hf. lia.
  - intros H. apply obind_loop in H as [H|([r rest] & H1 & H2)].
    + eapply (proj2 (parse_rr_panic dbg (x :: inp) Hb)); eauto.
    + apply parse_rr_ok in H1 as (rec & ttl & E & HR); auto. pose proof (RecordEnc_nonempty _ _ _ _ _ HR).
      eapply IHfuel; [| |exact H2].
      * rewrite E in Hb. apply bytes_ok_app_inv in Hb. tauto.
      * assert (HLn : List.length (x :: inp) = List.length (rec ++ rest)) by congruence. rewrite app_length in HLn.
        destruct rec; [congruence|]. cbn in *. lia.
Qed.

Lemma stream_loop_panic dbg fuel : forall inp acc, bytes_ok inp = true -> (List.length inp <= fuel)%nat ->
  (parse_stream_loop dbg fuel inp acc = Panic <-> BadStream (NameIn []) (negb dbg) dbg inp).
Proof.
  induction fuel; intros inp acc Hb Hf.
  { destruct inp; [|cbn in Hf; lia]. cbn. split; [discriminate|]. intros (s & rs & rec & rest & _ & H2 & H3).
    exfalso. inversion H2; subst. apply NameIn_nonempty in H. destruct s, nb; try discriminate; congruence. }
  destruct inp as [|x inp].
  { cbn. split; [discriminate|]. intros (s & rs & rec & rest & _ & H2 & H3).
    exfalso. inversion H2; subst. apply NameIn_nonempty in H. destruct s, nb; try discriminate; congruence. }
  cbn [parse_stream_loop]. rewrite obind_panic. split.
  - intros [H|([r rest] & H1 & H2)].
    + apply parse_rr_panic in H as (rec & rest & E & H); auto. exists [], [], rec, rest. repeat split; auto. constructor.
    + apply parse_rr_ok in H1 as (rec & ttl & E & HR); auto. pose proof (RecordEnc_nonempty _ _ _ _ _ HR).
      apply IHfuel in H2 as (s & rs & rec' & rest' & K1 & K2 & ->).
      * exists (rec ++ s), (r :: rs), rec', rest'. split; [econstructor; eauto|]. split; auto. rewrite <- app_assoc. exact E.
      * rewrite E in Hb. apply bytes_ok_app_inv in Hb. tauto.
      * assert (HLn : List.length (x :: inp) = List.length (rec ++ rest)) by congruence. rewrite app_length in HLn.
        destruct rec; [congruence|]. cbn in *. lia.
  - intros (s & rs & rec' & rest' & K1 & K2 & E). inversion K1; subst.
    + left. apply parse_rr_panic; auto. exists rec', rest'. auto.
    + right. exists (r, rest ++ rec' ++ rest'). split.
      * apply parse_rr_ok; auto. exists rec, ttl. split; auto. rewrite E, <- !app_assoc. reflexivity.
      * pose proof (RecordEnc_nonempty _ _ _ _ _ H). apply IHfuel.
        -- rewrite E, <- app_assoc in Hb. apply bytes_ok_app_inv in Hb. tauto.
        -- assert (HLn : List.length (x :: inp) = List.length (rec ++ rest ++ rec' ++ rest')) by (rewrite E, <- !app_assoc; auto).
           rewrite (app_length rec) in HLn. destruct rec; [congruence|]. cbn [List.length] in *. lia.
        -- exists rest, rs0, rec', rest'. auto.
Qed.

Lemma BadData_ext (Nm Nm' : bytes -> bytes -> Prop) dbg ty d : (forall b n, Nm b n -> Nm' b n) ->
  BadData Nm dbg ty d -> BadData Nm' dbg ty d.
Proof.
  intros Hn [[-> H]|H]; inversion H; subst; [left; split; auto|right|right]; econstructor; eauto.
Qed.
Lemma BadStream_ext (Nm Nm' : bytes -> bytes -> Prop) lax dbg inp : (forall b n, Nm b n -> Nm' b n) ->
  BadStream Nm lax dbg inp -> BadStream Nm' lax dbg inp.
Proof.
  intros Hn (s & rs & rec & rest & H1 & H2 & ->). exists s, rs, rec, rest.
  split; [eapply StreamEnc_ext; eauto|]. split; auto. inversion H2; subst. econstructor; eauto. eapply BadData_ext; eauto.
Qed.

Lemma parse_stream_panic dbg inp : bytes_ok inp = true ->
  (parse_rr_stream dbg inp = Panic <-> BadStream NamePlain (negb dbg) dbg inp) /\ parse_rr_stream dbg inp <> Loop.
Proof.
  intros Hb. split; [|apply stream_loop_no_loop; auto].
  unfold parse_rr_stream. rewrite stream_loop_panic by auto.
  split; apply BadStream_ext; intros b n; apply NameIn_plain.
Qed.

(** ** Stream composition *)
Lemma parse_stream_cons dbg rec r ttl rest : RecordEnc (NameIn []) (negb dbg) rec r ttl ->
  bytes_ok (rec ++ rest) = true ->
  parse_rr_stream dbg (rec ++ rest) = (rs <- parse_rr_stream dbg rest ;; Ok (r :: rs)).
Proof.
  intros H Hb. pose proof (RecordEnc_nonempty _ _ _ _ _ H) as Hne.
  apply bytes_ok_app_inv in Hb as Hb'. destruct Hb' as [_ Hb'].
  assert (A1 := parse_stream_spec dbg rest). assert (A2 := parse_stream_panic dbg rest Hb').
  destruct (parse_rr_stream dbg rest) as [rs| | |] eqn:E; cbn [obind].
  - apply parse_stream_complete. econstructor; [|apply A1; auto].
    eapply RecordEnc_ext; [|exact H]. intros b n. apply NameIn_plain.
  - destruct (parse_rr_stream dbg (rec ++ rest)) as [rs| | |] eqn:E2.
    + exfalso. unfold parse_rr_stream in E2. destruct rec as [|x rec]; [congruence|]. cbn [app List.length parse_stream_loop] in E2.
      apply obind_ok in E2 as ([r' rest'] & H1 & H2).
      assert (H1' : parse_rr dbg ((x :: rec) ++ rest) = Ok (r, rest)) by (apply parse_rr_ok; eauto).
      cbn [app] in H1'. rewrite H1' in H1. injection H1 as <- <-.
      apply stream_loop_sound in H2 as (rs' & _ & H2); auto.
      assert (parse_rr_stream dbg rest = Ok rs').
      { apply parse_stream_complete. eapply StreamEnc_ext; [|exact H2]. intros b n. apply NameIn_plain. }
      congruence.
    + destruct e, e0; reflexivity.
    + exfalso. unfold parse_rr_stream in E2. destruct rec as [|x rec]; [congruence|]. cbn [app List.length parse_stream_loop] in E2.
      assert (H1' : parse_rr dbg ((x :: rec) ++ rest) = Ok (r, rest)) by (apply parse_rr_ok; eauto).
      cbn [app] in H1'. rewrite H1' in E2. cbn [obind] in E2. apply stream_loop_panic in E2; auto.
      * apply BadStream_ext with (Nm' := NamePlain) in E2; [|intros b n; apply NameIn_plain].
        apply A2 in E2. discriminate.
      * rewrite app_length. lia.
    + exfalso. eapply (proj2 (parse_stream_panic dbg (rec ++ rest) Hb)); eauto.
  - apply parse_stream_panic; auto. destruct A2 as [A2 _]. destruct (proj1 A2 eq_refl) as (s & rs & rec' & rest' & K1 & K2 & ->).
    exists (rec ++ s), (r :: rs), rec', rest'. split; [econstructor; eauto|].
    + eapply RecordEnc_ext; [|exact H]. intros b n. apply NameIn_plain.
    + split; auto. rewrite <- app_assoc. reflexivity.
  - destruct A2; congruence.
Qed.

Lemma parse_stream_err_first dbg inp : bytes_ok inp = true -> inp <> [] -> parse_rr dbg inp = Err tt -> parse_rr_stream dbg inp = Err tt.
Proof.
  intros Hb Hn H. unfold parse_rr_stream. destruct inp; [congruence|]. cbn [List.length parse_stream_loop].
  rewrite H. reflexivity.
Qed.

(** A proper prefix of a record is not a record. *)
Lemma parse_rr_prefix dbg rec r ttl p s : RecordEnc (NameIn []) (negb dbg) rec r ttl -> bytes_ok rec = true ->
  rec = p ++ s -> s <> [] -> parse_rr dbg p = Err tt.
Proof.
  intros H Hb E Hs. assert (Hp : bytes_ok p = true) by (rewrite E in Hb; apply bytes_ok_app_inv in Hb; tauto).
  assert (Hfull : parse_rr dbg rec = Ok (r, [])).
  { apply parse_rr_ok; auto. exists rec, ttl. rewrite app_nil_r. auto. }
  destruct (parse_rr dbg p) as [[r' rest]|[]| |] eqn:Ep; auto; exfalso.
  - apply parse_rr_ok in Ep as (rec' & ttl' & -> & H'); auto.
    assert (parse_rr dbg rec = Ok (r', rest ++ s)).
    { apply parse_rr_ok; auto. exists rec', ttl'. rewrite app_assoc. auto. }
    rewrite H0 in Hfull. injection Hfull as _ E'. destruct rest; [|discriminate]. cbn in E'. congruence.
  - apply parse_rr_panic in Ep as (rec' & rest & -> & H'); auto.
    assert (parse_rr dbg rec = Panic).
    { apply parse_rr_panic; auto. exists rec', (rest ++ s). rewrite app_assoc. auto. }
    congruence.
  - eapply (proj2 (parse_rr_panic dbg p Hp)); eauto.
Qed.

(** ** Writing *)
Lemma is_bytes_ok l : is_bytes l <-> bytes_ok l = true.
Proof. unfold is_bytes, is_u8. rewrite bytes_ok_forall. tauto. Qed.

Lemma dotted_text ls : Forall (fun l => l <> [] /\ label_ok l) ls -> text_or_root (dots ls) = dotted ls.
Proof.
  intros H. destruct ls as [|l ls]; [reflexivity|]. cbn [dotted]. rewrite dots_cons. destruct l; reflexivity.
Qed.
Lemma dotted_acceptable ls : proper ls -> acceptable (dotted ls).
Proof.
  intros [H HL]. destruct ls as [|l ls].
  - exists [[]]. repeat split; try congruence; repeat constructor; cbn; lia.
  - exists (l :: ls). repeat split; try congruence; auto. eapply Forall_impl; [|exact H]. cbn; tauto.
Qed.
Lemma Canon_plain b n : CanonName b n -> NamePlain b n.
Proof.
  intros (ls & Hp & -> & -> & HL). exists ls. destruct Hp as [H Hlen]. split; [|split; [auto|]].
  - eapply Forall_impl; [|exact H]. intros l [H1 [H2 _]]. cbn. destruct l; [congruence|]. cbn in *. lia.
  - rewrite dotted_text by auto. split; [apply dotted_acceptable; split; auto|congruence].
Qed.
Lemma write_name_canon n : proper_name n -> CanonName (write_name n) n.
Proof.
  intros (ls & Hp & -> & HL). exists ls. split; auto. split; auto. apply write_name_proper; auto. apply Hp.
Qed.
Lemma Canon_write b n : CanonName b n -> b = write_name n /\ proper_name n.
Proof.
  intros (ls & Hp & -> & -> & HL). split; [|exists ls; auto]. symmetry. apply write_name_proper; auto. apply Hp.
Qed.
Lemma write_name_bytes n : proper_name n -> bytes_ok (write_name n) = true.
Proof.
  intros (ls & [H Hlen] & -> & HL). rewrite write_name_proper by auto. unfold wire_name.
  rewrite bytes_ok_app. apply andb_true_iff. split; [|reflexivity].
  clear HL Hlen. induction H; [reflexivity|].
  change (wire_labels (x :: l)) with ((N.of_nat (List.length x) :: x) ++ wire_labels l).
  rewrite bytes_ok_app. apply andb_true_iff. split; auto. apply bytes_ok_forall.
  destruct H as [_ [H1 H2]]. constructor; [lia|]. eapply Forall_impl; [|exact H2]. unfold label_char. intros; lia.
Qed.
Lemma wire_name_octets ls : proper ls -> length_of (wire_name ls) = name_octets (dotted ls).
Proof.
  intros [H _]. unfold name_octets. destruct ls as [|l ls]; [reflexivity|].
  destruct (list_eq_dec N.eq_dec (dotted (l :: ls)) [46]) as [E|_].
  - exfalso. inversion H; subst. destruct H2 as [H2 _]. cbn [dotted] in E. rewrite dots_cons in E.
    destruct l as [|? [|? ?]]; try discriminate; congruence.
  - cbn [dotted]. clear H. unfold wire_name. change length_of with (@len N). rewrite len_app.
    change (len [0]) with 1. f_equal. induction (l :: ls) as [|x t IH]; [reflexivity|].
    change (wire_labels (x :: t)) with ((N.of_nat (List.length x) :: x) ++ wire_labels t). rewrite dots_cons.
    rewrite !len_app, !len_cons, IH. lia.
Qed.
Lemma name_octets_len n : proper_name n -> len (write_name n) = name_octets n /\ name_len n = name_octets n /\ name_octets n <= 256.
Proof.
  intros (ls & Hp & -> & HL). rewrite <- wire_name_octets by auto.
  assert (E : len (write_name (dotted ls)) = length_of (wire_name ls)).
  { rewrite write_name_proper; auto. apply Hp. }
  rewrite <- E. split; auto. split; [apply name_len_proper; auto|].
  rewrite E, wire_name_octets by auto. unfold name_octets. destruct Hp as [_ Hp].
  destruct (list_eq_dec _ _ _); [lia|]. unfold length_of. lia.
Qed.

(** TXT strings. *)
Definition enc_strs (strs : list bytes) : bytes := flat_map (fun s => length_of s :: s) strs.

Lemma txt_loop_strs fuel : forall d, d <> [] -> (List.length d <= fuel)%nat ->
  exists strs, full_strings strs /\ concat strs = d /\
    N.min 255 (len d) :: txt_write_loop fuel d = enc_strs strs.
Proof.
  induction fuel; intros d Hd Hf; [destruct d; [congruence|cbn in Hf; lia]|].
  cbn [txt_write_loop]. rewrite (proj2 (is_nil_false d) Hd).
  assert (Hpos : 1 <= len d) by (destruct d; [congruence|rewrite len_cons; lia]).
  destruct (N.le_gt_cases (len d) 255) as [Hle|Hgt].
  - rewrite N.min_r by auto. rewrite dropN_all, takeN_all by lia. cbn [is_nil app].
    exists [d]. split; [exists [], d; repeat split; auto|]. split; [cbn; apply app_nil_r|].
    cbn [enc_strs flat_map]. rewrite !app_nil_r. destruct fuel; cbn; rewrite app_nil_r; reflexivity.
  - rewrite N.min_l by lia.
    assert (Hr : dropN 255 d <> []).
    { intros E. assert (len (dropN 255 d) = 0) by (rewrite E; reflexivity). rewrite len_dropN in H. lia. }
    rewrite (proj2 (is_nil_false _) Hr).
    destruct (IHfuel (dropN 255 d) Hr) as (strs & H1 & H2 & H3).
    { unfold dropN. rewrite skipn_length. change (N.to_nat 255) with 255%nat. destruct d; [congruence|]. cbn in *. lia. }
    exists (takeN 255 d :: strs). split.
    + destruct H1 as (full & last & -> & Hfu & Hla). exists (takeN 255 d :: full), last.
      repeat split; auto; try apply Hla. constructor; auto. change length_of with (@len N). apply len_takeN. lia.
    + split; [cbn [concat]; rewrite H2; apply takeN_dropN|].
      cbn [enc_strs flat_map app]. change length_of with (@len N). rewrite len_takeN by lia. f_equal. f_equal. exact H3.
Qed.

Lemma full_strings_size strs : full_strings strs ->
  len (enc_strs strs) = len (concat strs) + (len (concat strs) + 254) / 255 /\ concat strs <> [].
Proof.
  intros (full & last & -> & Hf & Hl). unfold enc_strs.
  assert (A : len (flat_map (fun s => length_of s :: s) full) = 256 * len full /\ len (concat full) = 255 * len full).
  { induction Hf; [split; reflexivity|]. destruct IHHf as [I1 I2]. cbn [flat_map concat]. rewrite !len_app, !len_cons, I1, I2.
    change (length_of x) with (len x) in H. rewrite H. split; lia. }
  destruct A as [A1 A2]. rewrite flat_map_app, concat_app, !len_app, A1, A2. cbn [flat_map concat].
  rewrite !app_nil_r, len_cons. change (length_of last) with (len last) in Hl. split.
  - replace ((255 * len full + len last + 254) / 255) with (len full + 1); [lia|].
    apply N.div_unique with (len last - 1); lia.
  - destruct last; [cbn in Hl; lia|]. intros E. apply app_eq_nil in E as [_ E]. discriminate.
Qed.

Lemma full_strings_unique a : forall b, full_strings a -> full_strings b -> concat a = concat b -> a = b.
Proof.
  intros b (fa & la & -> & Hfa & Hla) (fb & lb & -> & Hfb & Hlb). revert fb Hfb.
  induction Hfa as [|x fa Hx Hfa IH]; intros fb Hfb E.
  - destruct Hfb as [|y fb Hy Hfb]; [cbn in E; rewrite !app_nil_r in E; subst; reflexivity|].
    exfalso. assert (Hlen : len (concat ([] ++ [la])) = len (concat ((y :: fb) ++ [lb]))) by congruence.
    cbn [app concat] in Hlen. rewrite concat_app, !len_app in Hlen. cbn [concat] in Hlen. rewrite !len_app in Hlen.
    change length_of with (@len N) in *. rewrite !len_nil in Hlen. lia.
  - destruct Hfb as [|y fb Hy Hfb].
    + exfalso. assert (Hlen : len (concat ((x :: fa) ++ [la])) = len (concat ([] ++ [lb]))) by congruence.
      cbn [app concat] in Hlen. rewrite concat_app, !len_app in Hlen. cbn [concat] in Hlen. rewrite !len_app in Hlen.
      change length_of with (@len N) in *. rewrite !len_nil in Hlen. lia.
    + cbn [app concat] in E. apply app_inv_len in E as [-> E].
      2:{ change length_of with (@len N) in *. congruence. }
      rewrite <- !app_comm_cons. f_equal. apply IH; auto.
Qed.

Lemma txt_write_spec n d strs : full_strings strs -> concat strs = d -> len (enc_strs strs) <= 65535 ->
  txt_write {| tx_name := n; tx_data := d |} = u16 (len (enc_strs strs)) ++ enc_strs strs.
Proof.
  intros H1 H2 H3. unfold txt_write. cbn [tx_data].
  destruct (full_strings_size _ H1) as [Hs Hn]. rewrite H2 in Hs, Hn. rewrite <- Hs.
  rewrite as_u16_small by lia. rewrite be16_u16 by lia. f_equal. cbn [app].
  destruct (txt_loop_strs (List.length d) d Hn ltac:(lia)) as (strs' & K1 & K2 & K3). rewrite K3. f_equal.
  apply full_strings_unique; auto. congruence.
Qed.

Lemma full_strings_bytes strs : full_strings strs -> bytes_ok (concat strs) = true -> bytes_ok (enc_strs strs) = true.
Proof.
  intros (full & last & -> & Hf & Hl) Hb.
  assert (A : Forall (fun s => length_of s < 256 /\ bytes_ok s = true) (full ++ [last])).
  { apply Forall_app. rewrite concat_app, bytes_ok_app, andb_true_iff in Hb. destruct Hb as [Hb1 Hb2]. split.
    - clear Hb2. induction Hf; [constructor|]. cbn in Hb1. rewrite bytes_ok_app, andb_true_iff in Hb1. constructor; [|tauto]. rewrite H. split; [lia|tauto].
    - constructor; [|constructor]. cbn in Hb2. rewrite app_nil_r in Hb2. split; [lia|auto]. }
  clear - A. induction A; [reflexivity|]. unfold enc_strs in *. cbn [flat_map]. rewrite bytes_ok_app. apply andb_true_iff.
  split; auto. cbn. apply andb_true_iff. split; [apply N.ltb_lt; tauto|tauto].
Qed.

Lemma u16_ok n : n < 65536 -> bytes_ok (u16 n) = true.
Proof. intros. rewrite <- be16_u16 by auto. apply be16_ok. Qed.
Lemma u32_ok n : n < 4294967296 -> bytes_ok (u32 n) = true.
Proof. intros. rewrite <- be32_u32 by auto. apply be32_ok. Qed.

Lemma write_bitmap_bytes m : is_mask m -> bytes_ok (write_nsec_types_bitmap m) = true.
Proof.
  intros [HL Hb]. apply is_bytes_ok in Hb. destruct (mask_chunks m HL) as (cs & -> & H1 & H2).
  unfold write_nsec_types_bitmap. rewrite chunks_concat by (auto; lia).
  assert (Hall : Forall (fun c => bytes_ok c = true) cs).
  { clear - Hb. induction cs; [constructor|]. cbn in Hb. apply bytes_ok_app_inv in Hb. constructor; tauto. }
  clear - Hall. generalize 0 as idx. induction Hall; intros idx; [reflexivity|]. cbn [write_blocks]. rewrite bytes_ok_app, IHHall.
  rewrite andb_true_r. destruct (bytes_eqb x (repeat 0 32)); [reflexivity|].
  apply bytes_ok_forall. constructor; [apply N.mod_lt; discriminate|]. constructor; [apply N.mod_lt; discriminate|].
  rewrite <- (firstn_skipn (last_nz x + 1) x), bytes_ok_app, andb_true_iff in H. apply bytes_ok_forall. tauto.
Qed.

Lemma ok_app a b : bytes_ok a = true -> bytes_ok b = true -> bytes_ok (a ++ b) = true.
Proof. intros. rewrite bytes_ok_app, H, H0. reflexivity. Qed.
Lemma ok_cons x b : x < 256 -> bytes_ok b = true -> bytes_ok (x :: b) = true.
Proof. intros. change (byte_ok x && bytes_ok b = true). rewrite H0. unfold byte_ok. apply N.ltb_lt in H. rewrite H. reflexivity. Qed.
Ltac sp := repeat match goal with
  | |- bytes_ok (_ ++ _) = true => apply ok_app
  | |- bytes_ok (_ :: _) = true => apply ok_cons
  end; unfold is_u8 in *; try lia; auto using u16_ok, u32_ok, write_name_bytes, write_bitmap_bytes.

Lemma write_data_enc r : wf_rr r ->
  exists data, write_data r = u16 (len data) ++ data /\ len data <= 65535 /\ bytes_ok data = true /\
    RData CanonName false (rr_ty r) (rr_name r) r data.
Proof.
  intros (HT & HF & HN). destruct r as [x|x|x|x|x|x|x|x|x|x|x|x]; destruct x; cbn in HT; cbn in HF; cbn in HN; cbn [rr_ty rr_name
    RRM.a_name RRM.a6_name RRM.nr_name RRM.tx_name RRM.tl_name RRM.cn_name RRM.dn_name RRM.dk_name RRM.ds_name RRM.rs_name
    RRM.ns_name RRM.n3_name write_data RRM.nr_server RRM.cn_canonical RRM.dn_delegation].
  - destruct HT as (H1 & H2 & H3). change length_of with (@len N) in *. exists a_addr. unfold a_write. cbn [RRM.a_addr]. rewrite H2.
    split; [reflexivity|split; [lia|split; [apply is_bytes_ok; auto|apply RD_A; auto]]].
  - destruct HT as (H1 & H2 & H3). change length_of with (@len N) in *. exists a6_addr. unfold aaaa_write. cbn [RRM.a6_addr]. rewrite H2.
    split; [reflexivity|split; [lia|split; [apply is_bytes_ok; auto|apply RD_AAAA; auto]]].
  - destruct HT as (H1 & H2). destruct (name_octets_len _ H2) as (L1 & L2 & L3).
    exists (write_name nr_server). unfold name_write. rewrite L2, L1, be16_u16 by lia.
    split; [reflexivity|split; [lia|split; [apply write_name_bytes; auto|]]].
    rewrite <- (app_nil_r (write_name nr_server)). apply RD_NS; auto. apply write_name_canon; auto.
  - destruct HT as (H1 & H2). apply is_bytes_ok in H2. change length_of with (@len N) in *.
    destruct (txt_loop_strs (List.length tx_data) tx_data HN ltac:(lia)) as (strs & K1 & K2 & K3).
    destruct (full_strings_size _ K1) as [K4 _]. rewrite K2 in K4.
    exists (enc_strs strs). assert (K5 : len (enc_strs strs) <= 65535) by lia.
    rewrite (txt_write_spec _ _ strs) by auto. repeat split; auto.
    + apply full_strings_bytes; auto. congruence.
    + rewrite <- K2. apply RD_Txt.
  - destruct HT as (H1 & H2 & H3 & H4 & H5). apply is_bytes_ok in H5. change length_of with (@len N) in *.
    exists (tl_usage :: tl_selector :: tl_data_ty :: tl_data). unfold tlsa_write. cbn [RRM.tl_data RRM.tl_usage RRM.tl_selector RRM.tl_data_ty].
    rewrite as_u16_small, be16_u16 by lia. rewrite !len_cons. replace (1 + (1 + (1 + len tl_data))) with (3 + len tl_data) by lia.
    split; [reflexivity|split; [lia|split; [sp|apply RD_TLSA]]].
  - destruct HT as (H1 & H2). destruct (name_octets_len _ H2) as (L1 & L2 & L3).
    exists (write_name cn_canonical). unfold name_write. rewrite L2, L1, be16_u16 by lia.
    split; [reflexivity|split; [lia|split; [apply write_name_bytes; auto|]]].
    rewrite <- (app_nil_r (write_name cn_canonical)). apply RD_CName; auto. apply write_name_canon; auto.
  - destruct HT as (H1 & H2). destruct (name_octets_len _ H2) as (L1 & L2 & L3).
    exists (write_name dn_delegation). unfold name_write. rewrite L2, L1, be16_u16 by lia.
    split; [reflexivity|split; [lia|split; [apply write_name_bytes; auto|]]].
    rewrite <- (app_nil_r (write_name dn_delegation)). apply RD_DName; auto. apply write_name_canon; auto.
  - destruct HT as (H1 & H2 & H3 & H4 & H5). apply is_bytes_ok in H5. change length_of with (@len N) in *. unfold is_u16 in *.
    exists (u16 dk_flags ++ dk_protocol :: dk_alg :: dk_pubkey). unfold dnskey_write. cbn [RRM.dk_pubkey RRM.dk_flags RRM.dk_protocol RRM.dk_alg].
    rewrite as_u16_small, !be16_u16 by lia. rewrite len_app, !len_cons. change (len (u16 dk_flags)) with 2.
    replace (2 + (1 + (1 + len dk_pubkey))) with (4 + len dk_pubkey) by lia.
    split; [reflexivity|split; [lia|split; [ |apply RD_DnsKey]]]. sp.
  - destruct HT as (H1 & H2 & H3 & H4 & H5). apply is_bytes_ok in H5. change length_of with (@len N) in *. unfold is_u16 in *.
    exists (u16 ds_key_tag ++ ds_alg :: ds_digest_type :: ds_digest). unfold ds_write. cbn [RRM.ds_digest RRM.ds_key_tag RRM.ds_alg RRM.ds_digest_type].
    rewrite as_u16_small, !be16_u16 by lia. rewrite len_app, !len_cons. change (len (u16 ds_key_tag)) with 2.
    replace (2 + (1 + (1 + len ds_digest))) with (4 + len ds_digest) by lia.
    split; [reflexivity|split; [lia|split; [ |apply RD_DS]]]. sp.
  - destruct HT as (H1 & H2 & H3 & H4 & H5 & H6 & H7 & H8 & H9 & H10). apply is_bytes_ok in H10.
    change length_of with (@len N) in *. unfold is_u16, is_u32 in *.
    destruct (name_octets_len _ H9) as (L1 & L2 & L3).
    exists (u16 rs_ty ++ rs_alg :: rs_labels :: u32 rs_orig_ttl ++ u32 rs_expiration ++ u32 rs_inception ++ u16 rs_key_tag
            ++ write_name rs_key_name ++ rs_signature).
    assert (HL : len (u16 rs_ty ++ rs_alg :: rs_labels :: u32 rs_orig_ttl ++ u32 rs_expiration ++ u32 rs_inception ++ u16 rs_key_tag
            ++ write_name rs_key_name ++ rs_signature) = 18 + name_octets rs_key_name + len rs_signature).
    { rewrite len_app, !len_cons, !len_app. change (len (u16 rs_ty)) with 2. change (len (u16 rs_key_tag)) with 2.
      change (len (u32 rs_orig_ttl)) with 4. change (len (u32 rs_expiration)) with 4. change (len (u32 rs_inception)) with 4. lia. }
    rewrite HL. unfold rrsig_write. cbn [RRM.rs_key_name RRM.rs_signature RRM.rs_ty RRM.rs_alg RRM.rs_labels RRM.rs_orig_ttl RRM.rs_expiration RRM.rs_inception RRM.rs_key_tag].
    rewrite L2. rewrite (as_u16_small (len rs_signature)) by lia. rewrite as_u16_small by lia. rewrite !be16_u16, !be32_u32 by lia.
    repeat split; auto.
    + sp.
    + apply RD_RRSig. apply write_name_canon; auto.
  - destruct HT as (H1 & H2 & H3). destruct (name_octets_len _ H2) as (L1 & L2 & L3).
    destruct (bitmap_len_ok ns_types) as [B1 B2]; [apply H3|].
    exists (write_name ns_next ++ write_nsec_types_bitmap ns_types). unfold nsec_write. cbn [RRM.ns_next RRM.ns_types].
    rewrite len_app, B1, L1, L2. rewrite as_u16_small, be16_u16 by lia. split; [reflexivity|split; [lia|split; [ |]]].
    + sp.
    + apply RD_NSec; [apply write_name_canon; auto|apply write_bitmap_enc; apply H3].
  - destruct HT as (H1 & H2 & H3 & H4 & H5 & H6 & H7). apply is_bytes_ok in H5, H6. change length_of with (@len N) in *.
    unfold is_u16 in *. destruct (bitmap_len_ok n3_types) as [B1 B2]; [apply H7|]. destruct HF as [F1 F2].
    exists (n3_algo :: n3_flags :: u16 n3_iters ++ len n3_salt :: n3_salt ++ len n3_next_hash :: n3_next_hash ++ write_nsec_types_bitmap n3_types).
    assert (HL : len (n3_algo :: n3_flags :: u16 n3_iters ++ len n3_salt :: n3_salt ++ len n3_next_hash :: n3_next_hash ++ write_nsec_types_bitmap n3_types)
      = 6 + len n3_salt + len n3_next_hash + len (write_nsec_types_bitmap n3_types)).
    { rewrite !len_cons, len_app, len_cons, len_app, len_cons, len_app. change (len (u16 n3_iters)) with 2. lia. }
    rewrite HL. unfold nsec3_write. cbn [RRM.n3_algo RRM.n3_flags RRM.n3_iters RRM.n3_salt RRM.n3_next_hash RRM.n3_types].
    rewrite B1. rewrite (as_u16_small (len n3_salt)), (as_u16_small (len n3_next_hash)) by lia.
    rewrite as_u16_small, !be16_u16 by lia. rewrite !as_u8_small by lia. split; [reflexivity|split; [lia|split; [ |]]].
    + sp.
    + apply RD_NSec3. apply write_bitmap_enc. apply H7.
Qed.

Lemma wf_rr_owner r : wf_rr r -> proper_name (rr_name r).
Proof. intros (H & _). destruct r; cbn in H; cbn; tauto. Qed.
Lemma rr_ty_range r : rr_ty r < 65536.
Proof. destruct r; reflexivity. Qed.

Lemma write_rr_enc r ttl : wf_rr r -> ttl < 4294967296 ->
  RecordEnc CanonName false (write_rr r ttl) r ttl /\ bytes_ok (write_rr r ttl) = true.
Proof.
  intros Hw Ht. destruct (write_data_enc r Hw) as (data & H1 & H2 & H3 & H4). pose proof (wf_rr_owner r Hw).
  pose proof (rr_ty_range r). unfold write_rr. rewrite H1. rewrite !be16_u16, be32_u32 by (auto; lia).
  split.
  - apply (RecordEnc_intro CanonName false (write_name (rr_name r)) (rr_name r)); auto. apply write_name_canon; auto.
  - sp. apply u16_ok. lia.
Qed.

Lemma write_parse_rr dbg wire r ttl rest : wf_rr r -> ttl < 4294967296 ->
  parse_wire_packet_rr dbg (write_rr r ttl ++ rest) wire = Ok (r, ttl, rest).
Proof.
  intros Hw Ht. apply parse_rr_complete. apply RecordEnc_lax.
  eapply RecordEnc_ext; [|apply write_rr_enc; auto]. intros b n Hc.
  destruct (Canon_plain _ _ Hc) as (ls & K1 & -> & K3 & ->). exists (dots ls). split; auto.
  rewrite <- (app_nil_r (wire_name ls)). apply plain_NameEnc. auto.
Qed.

Definition write_all (l : list (RR * N)) : bytes := flat_map (fun rt => write_rr (fst rt) (snd rt)) l.
Definition wf_item (rt : RR * N) : Prop := wf_rr (fst rt) /\ snd rt < 4294967296.

Lemma canon_to_in b n : CanonName b n -> NameIn [] b n.
Proof. intros H. apply NameIn_plain. apply Canon_plain. auto. Qed.

Lemma write_all_bytes l : Forall wf_item l -> bytes_ok (write_all l) = true.
Proof.
  induction 1; [reflexivity|]. unfold write_all in *. cbn [flat_map]. rewrite bytes_ok_app. apply andb_true_iff. split; auto.
  destruct H. apply write_rr_enc; auto.
Qed.

Lemma write_parse_stream dbg l : Forall wf_item l -> parse_rr_stream dbg (write_all l) = Ok (map fst l).
Proof.
  intros H. apply parse_stream_complete. induction H; [constructor|]. unfold write_all. cbn [flat_map map].
  econstructor; [|exact IHForall]. apply RecordEnc_lax. eapply RecordEnc_ext; [apply Canon_plain|].
  destruct H. apply write_rr_enc; auto.
Qed.

Lemma shorter_prefix (a q w t : bytes) : a ++ q = w ++ t -> len a < len w -> exists s, w = a ++ s /\ s <> [].
Proof.
  revert w. induction a as [|x a IH]; intros w E H.
  - exists w. split; auto. intros ->. cbn in H. lia.
  - destruct w as [|y w]; [cbn in H; lia|]. cbn in E. injection E as -> E. rewrite !len_cons in H.
    destruct (IH w E) as (s & -> & Hs); [lia|]. exists s. auto.
Qed.

Lemma write_truncate dbg l : Forall wf_item l -> forall p q, p ++ q = write_all l ->
  (exists k, p = write_all (firstn k l) /\ parse_rr_stream dbg p = Ok (map fst (firstn k l))) \/
  parse_rr_stream dbg p = Err tt.
Proof.
  induction 1 as [|[r ttl] l [Hw Ht] Hl IH]; intros p q E.
  - left. exists 0%nat. destruct p; [|discriminate]. split; reflexivity.
  - cbn [fst snd] in *. destruct (write_rr_enc r ttl Hw Ht) as [HE HB].
    assert (HE' : RecordEnc (NameIn []) (negb dbg) (write_rr r ttl) r ttl).
    { apply RecordEnc_lax. eapply RecordEnc_ext; [apply canon_to_in|]. auto. }
    change (write_all ((r, ttl) :: l)) with (write_rr r ttl ++ write_all l) in E.
    destruct (N.le_gt_cases (len (write_rr r ttl)) (len p)) as [Hle|Hgt].
    + apply split_at in Hle as (p1 & p2 & -> & Hlen). rewrite <- app_assoc in E.
      apply app_inv_len in E as [-> E]; auto.
      assert (Hb2 : bytes_ok (write_rr r ttl ++ p2) = true).
      { rewrite bytes_ok_app, HB. cbn. pose proof (write_all_bytes l Hl) as Hb. rewrite <- E in Hb.
        apply bytes_ok_app_inv in Hb. tauto. }
      rewrite (parse_stream_cons _ _ _ _ _ HE' Hb2).
      destruct (IH _ _ E) as [(k & -> & Hk)|Hk].
      * left. exists (S k). cbn [firstn map fst]. split; [reflexivity|]. rewrite Hk. reflexivity.
      * right. rewrite Hk. reflexivity.
    + destruct p as [|x p].
      * left. exists 0%nat. split; reflexivity.
      * right. apply parse_stream_err_first; [|congruence|].
        -- pose proof (write_all_bytes ((r, ttl) :: l)) as Hb.
           change (write_all ((r, ttl) :: l)) with (write_rr r ttl ++ write_all l) in Hb. rewrite <- E in Hb.
           rewrite bytes_ok_app in Hb. apply andb_true_iff in Hb; [tauto|]. constructor; auto. split; auto.
        -- pose proof (shorter_prefix _ _ _ _ E Hgt) as Ep.
           destruct Ep as (s & Es & Hs). eapply parse_rr_prefix; eauto.
Qed.

(** ** Canonical RDATA is preserved *)
Lemma NamePlain_unambiguous b n x b' n' x' : NamePlain b n -> NamePlain b' n' -> b ++ x = b' ++ x' -> b = b' /\ n = n' /\ x = x'.
Proof.
  intros H H' E. apply NameIn_plain in H, H'. pose proof (read_name_app _ _ _ x H) as R. pose proof (read_name_app _ _ _ x' H') as R'.
  rewrite E, R' in R. injection R as <- <-. apply app_inv_tail in E. auto.
Qed.

Lemma lp_inv (a b x y : bytes) : length_of a :: a ++ x = length_of b :: b ++ y -> a = b /\ x = y.
Proof. intros H. injection H as H1 H2. apply app_inv_len; auto. Qed.

Lemma canon_sig_inv data : CanonRData 46 data ->
  exists h b n s, data = h ++ b ++ s /\ length_of h = 18 /\ CanonName b n.
Proof. inversion 1; subst; [exfalso; cbn in *; lia|exfalso; cbn in *; lia|eauto 10]. Qed.
Lemma canon_nsec_inv data : CanonRData 47 data ->
  exists b n bits, data = b ++ bits /\ CanonName b n /\ canonical_bitmap bits.
Proof. inversion 1; subst; [exfalso; cbn in *; lia|exfalso; cbn in *; lia|eauto 10]. Qed.
Lemma canon_nsec3_inv data : CanonRData 50 data ->
  exists h salt nh bits, data = h ++ length_of salt :: salt ++ length_of nh :: nh ++ bits /\ length_of h = 4 /\
    canonical_bitmap bits.
Proof. inversion 1; subst; [exfalso; cbn in *; lia|exfalso; cbn in *; lia|eauto 10]. Qed.

Lemma canon_preserved lax ty o r data : RData NamePlain lax ty o r data -> CanonRData ty data ->
  len data <= 65535 -> bytes_ok data = true -> write_data r = u16 (len data) ++ data.
Proof.
  intros HR HC HL Hb.
  assert (Hname : forall b n extra b' n', NamePlain b n -> CanonName b' n' -> b ++ extra = b' ->
     name_write n = u16 (len b') ++ b').
  { intros b n extra b' n' H1 H2 H3. apply Canon_plain in H2 as H4. rewrite <- (app_nil_r b') in H3.
    destruct (NamePlain_unambiguous _ _ _ _ _ _ H1 H4 H3) as (-> & -> & ->).
    apply Canon_write in H2 as [-> Hp]. destruct (name_octets_len _ Hp) as (L1 & L2 & L3).
    unfold name_write. rewrite L2, L1, be16_u16 by lia. reflexivity. }
  inversion HR; subst; cbn [write_data nr_server cn_canonical dn_delegation].
  - unfold a_write. cbn [RRM.a_addr]. change (len data) with (length_of data). rewrite H. reflexivity.
  - unfold aaaa_write. cbn [RRM.a6_addr]. change (len data) with (length_of data). rewrite H. reflexivity.
  - inversion HC; subst; [exfalso; cbn in *; lia|]. eapply Hname; eauto.
  - inversion HC; subst; [exfalso; cbn in *; lia|]. eapply Hname; eauto.
  - inversion HC; subst; [exfalso; cbn in *; lia|]. eapply Hname; eauto.
  - inversion HC; subst; [exfalso; cbn in *; lia|exfalso; cbn in *; lia|].
    rewrite (txt_write_spec _ _ strs0).
    + reflexivity.
    + auto.
    + assert (R1 := txt_read_complete strs0 (List.length (flat_map (fun s => length_of s :: s) strs)) []).
      assert (R2 := txt_read_complete strs (List.length (flat_map (fun s => length_of s :: s) strs)) [] ltac:(lia)).
      rewrite H in R1. specialize (R1 ltac:(lia)). rewrite R1 in R2. cbn in R2. congruence.
    + unfold enc_strs. rewrite H. auto.
  - unfold tlsa_write. cbn [RRM.tl_data RRM.tl_usage RRM.tl_selector RRM.tl_data_ty]. rewrite !len_cons in *.
    rewrite as_u16_small, be16_u16 by lia. replace (1 + (1 + (1 + len d))) with (3 + len d) by lia. reflexivity.
  - unfold dnskey_write. cbn [RRM.dk_pubkey RRM.dk_flags RRM.dk_protocol RRM.dk_alg].
    rewrite len_app, !len_cons in *. change (len (u16 f)) with 2 in *.
    apply bytes_ok_app_inv in Hb as [Hb _].
    rewrite as_u16_small, be16_u16 by lia. rewrite be16_u16.
    + replace (2 + (1 + (1 + len k))) with (4 + len k) by lia. reflexivity.
    + unfold u16 in Hb; cbn in Hb. unfold byte_ok in Hb. rewrite !andb_true_iff, !N.ltb_lt in Hb. pose proof (N.div_mod f 256). lia.
  - unfold ds_write. cbn [RRM.ds_digest RRM.ds_key_tag RRM.ds_alg RRM.ds_digest_type].
    rewrite len_app, !len_cons in *. change (len (u16 t)) with 2 in *.
    apply bytes_ok_app_inv in Hb as [Hb _].
    rewrite as_u16_small, be16_u16 by lia. rewrite be16_u16.
    + replace (2 + (1 + (1 + len d))) with (4 + len d) by lia. reflexivity.
    + unfold u16 in Hb; cbn in Hb. unfold byte_ok in Hb. rewrite !andb_true_iff, !N.ltb_lt in Hb. pose proof (N.div_mod t 256). lia.
  - apply canon_sig_inv in HC as (h & b0 & n0 & s0 & H1 & H2 & H3).
    assert (E : h ++ b0 ++ s0 = (u16 ty0 ++ a :: l :: u32 ttl ++ u32 ex ++ u32 inc ++ u16 tag) ++ b ++ s).
    { rewrite <- H1. repeat rewrite <- ?app_assoc, <- ?app_comm_cons. reflexivity. }
    apply app_inv_len in E as [-> E].
    2:{ change (len h) with (length_of h). rewrite H2. reflexivity. }
    apply Canon_plain in H3 as H5. destruct (NamePlain_unambiguous _ _ _ _ _ _ H5 H E) as (-> & -> & ->).
    apply Canon_write in H3 as [-> Hp]. destruct (name_octets_len _ Hp) as (L1 & L2 & L3).
    assert (Hl : len (u16 ty0 ++ a :: l :: u32 ttl ++ u32 ex ++ u32 inc ++ u16 tag ++ write_name n ++ s)
      = 18 + name_octets n + len s).
    { rewrite len_app, !len_cons, !len_app. change (len (u16 ty0)) with 2. change (len (u16 tag)) with 2.
      change (len (u32 ttl)) with 4. change (len (u32 ex)) with 4. change (len (u32 inc)) with 4. lia. }
    rewrite Hl in *. unfold rrsig_write. cbn [RRM.rs_key_name RRM.rs_signature RRM.rs_ty RRM.rs_alg RRM.rs_labels RRM.rs_orig_ttl RRM.rs_expiration RRM.rs_inception RRM.rs_key_tag].
    rewrite L2. rewrite (as_u16_small (len s)) by lia. rewrite as_u16_small by lia.
    apply bytes_ok_app_inv in Hb as [B1 Hb]. apply bytes_ok_cons_inv in Hb as [_ Hb]. apply bytes_ok_cons_inv in Hb as [_ Hb].
    apply bytes_ok_app_inv in Hb as [B2 Hb]. apply bytes_ok_app_inv in Hb as [B3 Hb].
    apply bytes_ok_app_inv in Hb as [B4 Hb]. apply bytes_ok_app_inv in Hb as [B5 Hb].
    assert (R16 : forall v, bytes_ok (u16 v) = true -> v < 65536).
    { intros v Hv. unfold u16 in Hv; cbn in Hv. unfold byte_ok in Hv. rewrite !andb_true_iff, !N.ltb_lt in Hv. pose proof (N.div_mod v 256). lia. }
    assert (R32 : forall v, bytes_ok (u32 v) = true -> v < 4294967296).
    { intros v Hv. unfold u32 in Hv; cbn [bytes_ok forallb] in Hv. unfold byte_ok in Hv. rewrite !andb_true_iff, !N.ltb_lt in Hv.
      pose proof (N.div_mod v 16777216). pose proof (N.mod_lt v 16777216). lia. }
    rewrite !be16_u16, !be32_u32 by (auto; lia). reflexivity.
  - apply canon_nsec_inv in HC as (b0 & n0 & bits0 & H2 & H3 & H4). symmetry in H2.
    apply Canon_plain in H3 as H5. destruct (NamePlain_unambiguous _ _ _ _ _ _ H5 H H2) as (-> & -> & ->).
    apply Canon_write in H3 as [-> Hp]. destruct (name_octets_len _ Hp) as (L1 & L2 & L3).
    unfold nsec_write. cbn [RRM.ns_next RRM.ns_types].
    destruct (bitmap_len_ok mask) as [B1 B2]; [destruct H0 as (? & _ & _ & ? & _); auto|].
    rewrite B1, L2. rewrite (canonical_written bits mask) in * by (auto; apply read_bitmap_spec; auto).
    rewrite len_app, L1. rewrite as_u16_small, be16_u16 by lia. reflexivity.
  - apply canon_nsec3_inv in HC as (h & salt0 & nh0 & bits0 & H0 & H1 & H2).
    assert (E : h ++ length_of salt0 :: salt0 ++ length_of nh0 :: nh0 ++ bits0
      = (al :: fl :: u16 it) ++ length_of salt :: salt ++ length_of nh :: nh ++ bits) by (rewrite <- H0; reflexivity).
    apply app_inv_len in E as [-> E].
    2:{ change (len h) with (length_of h). rewrite H1. reflexivity. }
    apply lp_inv in E as [-> E]. apply lp_inv in E as [-> ->].
    destruct (bitmap_len_ok mask) as [B1 B2]; [destruct H as (? & _ & _ & ? & _); auto|].
    rewrite (canonical_written bits mask) in * by (auto; apply read_bitmap_spec; auto).
    assert (HLn : len (al :: fl :: u16 it ++ length_of salt :: salt ++ length_of nh :: nh ++ bits)
      = 6 + len salt + len nh + len bits).
    { rewrite !len_cons, len_app, len_cons, len_app, len_cons, len_app. change (len (u16 it)) with 2. lia. }
    rewrite HLn in *.
    apply bytes_ok_cons_inv in Hb as [_ Hb]. apply bytes_ok_cons_inv in Hb as [_ Hb].
    apply bytes_ok_app_inv in Hb as [C1 Hb]. apply bytes_ok_cons_inv in Hb as [C2 Hb].
    apply bytes_ok_app_inv in Hb as [_ Hb]. apply bytes_ok_cons_inv in Hb as [C3 Hb].
    change length_of with (@len N) in *.
    unfold nsec3_write. cbn [RRM.n3_algo RRM.n3_flags RRM.n3_iters RRM.n3_salt RRM.n3_next_hash RRM.n3_types].
    rewrite B1, (as_u16_small (len salt)), (as_u16_small (len nh)) by lia. rewrite as_u16_small, !as_u8_small by lia.
    rewrite (canonical_written bits mask) by (auto; apply read_bitmap_spec; auto).
    rewrite !be16_u16; [reflexivity| |lia].
    unfold u16 in C1; cbn in C1. unfold byte_ok in C1. rewrite !andb_true_iff, !N.ltb_lt in C1. pose proof (N.div_mod it 256). lia.
Qed.
