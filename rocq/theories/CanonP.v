(** Legal RRsets on the wire are parsed and checked as their zone signed them (for C89). *)
From Verif Require Import Base NameM WireM RRM SerM ValM BaseP NameSpec WireSpec BitmapSpec RecSpec CodecSpec
  NameP WireP BitmapP RecP RecP2 HeldP ValSpec ValP ValP5 OrdP OrdRR SignedSpec SignedP SecP CanonSpec.
From Coq Require Import Permutation Sorted.
Local Open Scope N_scope.

Lemma lower_length l : List.length (lower l) = List.length l.
Proof. apply map_length. Qed.
Lemma lower_idem l : lower (lower l) = lower l.
Proof.
  unfold lower. rewrite map_map. apply map_ext. intros c. unfold to_lower.
  destruct ((65 <=? c) && (c <=? 90)) eqn:E; [| rewrite E; reflexivity]. apply andb_true_iff in E as [A B]. apply N.leb_le in A, B.
  replace (c + 32 <=? 90) with false by (symmetry; apply N.leb_gt; lia). rewrite andb_false_r. reflexivity.
Qed.
Lemma lower_dots ls : lower (dots ls) = dots (map lower ls).
Proof.
  induction ls as [| l ls IH]; [reflexivity |]. cbn [map]. rewrite !dots_cons. unfold lower at 1. rewrite map_app. cbn [map]. f_equal. f_equal. exact IH.
Qed.
Lemma lower_dotted ls : lower (dotted ls) = dotted (map lower ls).
Proof. destruct ls as [| l ls]; [reflexivity |]. cbn [dotted map]. apply (lower_dots (l :: ls)). Qed.
Lemma label_char_lower c : label_char c -> label_char (to_lower c).
Proof. unfold label_char, to_lower. intros H. destruct ((65 <=? c) && (c <=? 90)) eqn:E; [| exact H]. apply andb_true_iff in E as [A B]. apply N.leb_le in A, B. lia. Qed.
Lemma proper_lower ls : proper ls -> proper (map lower ls).
Proof.
  intros [H L]. split.
  - rewrite Forall_map. eapply Forall_impl; [| exact H]. intros l (A & B & C). split; [destruct l; [congruence | discriminate] |].
    split; [rewrite lower_length; exact B |]. unfold lower. rewrite Forall_map. eapply Forall_impl; [| exact C]. exact label_char_lower.
  - rewrite <- lower_dotted, lower_length. exact L.
Qed.
Lemma lower_canon ls : proper ls -> CanonName (wire_name (map lower ls)) (dotted (map lower ls)).
Proof. intros H. exists (map lower ls). split; [apply proper_lower; exact H |]. split; [reflexivity |]. split; [reflexivity |]. rewrite <- lower_dotted. apply lower_idem. Qed.
Lemma lower_plain ls : proper ls -> NamePlain (wire_name ls) (dotted (map lower ls)).
Proof.
  intros Hp. exists ls. pose proof Hp as [H L]. split; [| split; [reflexivity |]].
  - eapply Forall_impl; [|exact H]. intros l [H1 [H2 _]]. cbn. destruct l; [congruence|]. cbn in *. lia.
  - rewrite dotted_text by exact H. split; [apply dotted_acceptable; exact Hp | symmetry; apply lower_dotted].
Qed.
Lemma lower_proper_name ls : proper ls -> proper_name (dotted (map lower ls)).
Proof. intros H. exists (map lower ls). split; [apply proper_lower; exact H |]. split; [reflexivity |]. rewrite <- lower_dotted. apply lower_idem. Qed.
Lemma proper_labels ls : proper ls -> LabelsOf (dotted ls) ls.
Proof.
  intros [P _]. split; [reflexivity |]. split.
  - eapply Forall_impl; [|exact P]. cbn. tauto.
  - intros ->. inversion P as [|? ? [Hn _] _]. congruence.
Qed.

(** Records meant by the octets. *)
Definition Means (w : wire_rr) (r : RR) : Prop :=
  wf_rr r /\ rr_name r = dotted (map lower (wr_owner w)) /\ rr_ty r = wr_type w /\ RecordEnc NamePlain false (wr_octets w) r (wr_ttl w) /\
  (forall d, RDataOf r d <-> CanonicalRData (wr_type w) (wr_data w) d).

Lemma canonical_same ty data d : CanonicalRData ty data d -> ~ In ty [2; 5; 39] -> d = data.
Proof. intros H N. destruct H; try reflexivity. contradiction. Qed.
Lemma canonical_name ty data d : CanonicalRData ty data d -> In ty [2; 5; 39] -> exists ls, proper ls /\ data = wire_name ls /\ d = wire_name (map lower ls).
Proof. intros H N. destruct H; eauto; exfalso; cbn in N; lia. Qed.
Lemma canonical_fun ty data d d' : CanonicalRData ty data d -> CanonicalRData ty data d' -> d = d'.
Proof.
  intros H H'. destruct (in_dec N.eq_dec ty [2; 5; 39]) as [I | I].
  - apply canonical_name in H as (ls & P & E & ->), H' as (ls' & P' & E' & ->); try exact I.
    assert (EW : wire_name ls ++ [] = wire_name ls' ++ []) by (rewrite !app_nil_r; congruence).
    destruct (NamePlain_unambiguous _ _ [] _ _ [] (lower_plain _ P) (lower_plain _ P') EW) as (_ & N & _).
    eapply canon_name_unique; [apply lower_canon; exact P |]. rewrite N. apply lower_canon. exact P'.
  - rewrite (canonical_same _ _ _ H I), (canonical_same _ _ _ H' I). reflexivity.
Qed.

Lemma u16_bytes a b : a < 256 -> b < 256 -> u16 (a * 256 + b) = [a; b] /\ a * 256 + b < 65536.
Proof.
  intros Ha Hb. unfold u16. split; [| lia]. f_equal; [| f_equal].
  - rewrite N.add_comm, N.div_add by lia. rewrite N.div_small by exact Hb. lia.
  - rewrite N.add_comm, N.mod_add by lia. apply N.mod_small. exact Hb.
Qed.
Lemma bitmap_exists bits : canonical_bitmap bits -> exists mask, BitmapEnc bits mask.
Proof.
  intros (bl & C & ->). exists (map (fun i => octet_at bl i 0) (seq 0 (N.to_nat 8192))). exists bl. split; [reflexivity |]. split; [eapply canonical_fits; exact C |].
  split; [rewrite map_length, seq_length; reflexivity |]. intros i Hi.
  rewrite (nth_indep _ 0 (octet_at bl 0 0)) by (rewrite map_length, seq_length; exact Hi).
  change (octet_at bl 0 0) with ((fun i => octet_at bl i 0) 0%nat). rewrite map_nth, seq_nth by exact Hi. reflexivity.
Qed.

Lemma means_exists w : is_bytes (wr_octets w) -> proper (wr_owner w) -> (exists d, CanonicalRData (wr_type w) (wr_data w) d) ->
  FullStrings w -> LowerNext w -> exists r, Means w r.
Proof.
  destruct w as [ls ty ttl data]. unfold wr_octets, FullStrings, LowerNext, Means. cbn [wr_owner wr_type wr_ttl wr_data].
  intros HB HP (d & HC) HT HN.
  assert (Hdata : is_bytes data). { unfold is_bytes in *. rewrite !Forall_app in HB. tauto. }
  assert (Hlen : length_of data <= 65535).
  { unfold is_bytes in HB. rewrite !Forall_app in HB. destruct HB as (_ & _ & _ & _ & HB & _). unfold u16 in HB. inversion HB as [| x l X _]; subst. unfold is_u8 in X.
    pose proof (N.div_mod (length_of data) 256 ltac:(lia)). pose proof (N.mod_lt (length_of data) 256 ltac:(lia)). lia. }
  pose proof (lower_proper_name ls HP) as PN. pose proof (lower_plain ls HP) as PL.
  set (o := dotted (map lower ls)) in *.
  assert (G : forall r, wf_rr r -> rr_name r = o -> rr_ty r = ty -> RData NamePlain false ty o r data -> RDataOf r d -> exists r, wf_rr r /\ rr_name r = o /\ rr_ty r = ty /\
    RecordEnc NamePlain false (wire_name ls ++ u16 ty ++ u16 1 ++ u32 ttl ++ u16 (length_of data) ++ data) r ttl /\ (forall d, RDataOf r d <-> CanonicalRData ty data d)).
  { intros r W N T R C. exists r. split; [exact W |]. split; [exact N |]. split; [exact T |]. split; [apply (RecordEnc_intro _ _ _ o); assumption |].
    intros d'. split.
    - intros [C1 C2]. destruct C as [C3 C4]. rewrite <- (rdata_unique _ _ _ _ _ C3 C4 C1 C2). exact HC.
    - intros C'. rewrite <- (canonical_fun _ _ _ _ HC C'). exact C. }
  inversion HC as [d0 L | d0 L | d0 L | d0 L | d0 L | ty0 ns I P | strs S F | ns bits P B | h salt nh bits L B dd]; subst; clear HC.
  - apply (G (RR_A {| a_name := o; a_addr := d |})); [split; [cbn; auto | split; exact I] | reflexivity | reflexivity | apply RD_A; exact L |].
    split; [apply RD_A; exact L | apply CR_plain; cbn; auto 10].
  - apply (G (RR_AAAA {| a6_name := o; a6_addr := d |})); [split; [cbn; auto | split; exact I] | reflexivity | reflexivity | apply RD_AAAA; exact L |].
    split; [apply RD_AAAA; exact L | apply CR_plain; cbn; auto 10].
  - destruct d as [| u [| s [| t rest]]]; try (exfalso; cbn in L; lia). inversion Hdata as [| ? ? B1 Hd]; subst. inversion Hd as [| ? ? B2 Hd2]; subst. inversion Hd2 as [| ? ? B3 Hd3]; subst.
    apply (G (RR_TLSA {| tl_name := o; tl_usage := u; tl_selector := s; tl_data_ty := t; tl_data := rest |})); [| reflexivity | reflexivity | apply RD_TLSA |].
    + split; [cbn [typed_rr tl_name tl_usage tl_selector tl_data_ty tl_data]; auto 6 |]. split; [| exact I]. cbn [fits_rr tl_data]. unfold length_of in *. cbn [List.length] in Hlen. lia.
    + split; [apply RD_TLSA | apply CR_plain; cbn; auto 10].
  - destruct d as [| a [| b [| c [| y rest]]]]; try (exfalso; cbn in L; lia). inversion Hdata as [| ? ? B1 Hd]; subst. inversion Hd as [| ? ? B2 Hd2]; subst.
    inversion Hd2 as [| ? ? B3 Hd3]; subst. inversion Hd3 as [| ? ? B4 Hd4]; subst. destruct (u16_bytes a b B1 B2) as [U V].
    assert (RD : forall Nm, RData Nm false 43 o (RR_DS {| ds_name := o; ds_key_tag := a * 256 + b; ds_alg := c; ds_digest_type := y; ds_digest := rest |}) (a :: b :: c :: y :: rest)).
    { intros Nm. change (a :: b :: c :: y :: rest) with ([a; b] ++ c :: y :: rest). rewrite <- U. apply RD_DS. }
    eapply G; [| | | apply RD | split; [apply RD | apply CR_plain; cbn; auto 10]]; try reflexivity.
    split; [cbn [typed_rr ds_name ds_key_tag ds_alg ds_digest_type ds_digest]; auto 6 |]. split; [| exact I]. cbn [fits_rr ds_digest]. unfold length_of in *. cbn [List.length] in Hlen. lia.
  - destruct d as [| a [| b [| c [| y rest]]]]; try (exfalso; cbn in L; lia). inversion Hdata as [| ? ? B1 Hd]; subst. inversion Hd as [| ? ? B2 Hd2]; subst.
    inversion Hd2 as [| ? ? B3 Hd3]; subst. inversion Hd3 as [| ? ? B4 Hd4]; subst. destruct (u16_bytes a b B1 B2) as [U V].
    assert (RD : forall Nm, RData Nm false 48 o (RR_DnsKey {| dk_name := o; dk_flags := a * 256 + b; dk_protocol := c; dk_alg := y; dk_pubkey := rest |}) (a :: b :: c :: y :: rest)).
    { intros Nm. change (a :: b :: c :: y :: rest) with ([a; b] ++ c :: y :: rest). rewrite <- U. apply RD_DnsKey. }
    eapply G; [| | | apply RD | split; [apply RD | apply CR_plain; cbn; auto 10]]; try reflexivity.
    split; [cbn [typed_rr dk_name dk_flags dk_protocol dk_alg dk_pubkey]; auto 6 |]. split; [| exact I]. cbn [fits_rr dk_pubkey]. unfold length_of in *. cbn [List.length] in Hlen. lia.
  - pose proof (lower_proper_name ns P) as PN2. pose proof (lower_plain ns P) as PL2. pose proof (lower_canon ns P) as PC2.
    cbn [In] in I. destruct I as [<- | [<- | [<- | []]]].
    + apply (G (RR_NS {| nr_name := o; nr_server := dotted (map lower ns) |})); [split; [cbn; auto | split; exact I] | reflexivity | reflexivity | |].
      * rewrite <- (app_nil_r (wire_name ns)). apply RD_NS; [exact PL2 | auto].
      * split; [rewrite <- (app_nil_r (wire_name (map lower ns))); apply RD_NS; [exact PC2 | auto] | eapply CR_name; [cbn; auto | exact PC2]].
    + apply (G (RR_CName {| cn_name := o; cn_canonical := dotted (map lower ns) |})); [split; [cbn; auto | split; exact I] | reflexivity | reflexivity | |].
      * rewrite <- (app_nil_r (wire_name ns)). apply RD_CName; [exact PL2 | auto].
      * split; [rewrite <- (app_nil_r (wire_name (map lower ns))); apply RD_CName; [exact PC2 | auto] | eapply CR_name; [cbn; auto | exact PC2]].
    + apply (G (RR_DName {| dn_name := o; dn_delegation := dotted (map lower ns) |})); [split; [cbn; auto | split; exact I] | reflexivity | reflexivity | |].
      * rewrite <- (app_nil_r (wire_name ns)). apply RD_DName; [exact PL2 | auto].
      * split; [rewrite <- (app_nil_r (wire_name (map lower ns))); apply RD_DName; [exact PC2 | auto] | eapply CR_name; [cbn; auto | exact PC2]].
  - destruct (HT eq_refl) as (strs' & FS & E). rewrite E in *.
    apply (G (RR_Txt {| tx_name := o; tx_data := concat strs' |})); [| reflexivity | reflexivity | apply RD_Txt | split; [apply RD_Txt | apply (CR_txt strs'); exact FS]].
    destruct (full_strings_size _ FS) as [K4 _]. assert (Hc : bytes_ok (concat strs') = true).
    { apply is_bytes_ok in Hdata. revert Hdata. clear. unfold strings. induction strs' as [| x t IH]; intros H; [reflexivity |]. cbn [flat_map concat] in *.
      rewrite bytes_ok_app in *. apply andb_true_iff in H as [H1 H2]. apply bytes_ok_cons_inv in H1 as [_ H1]. apply andb_true_iff. split; [exact H1 | apply IH; exact H2]. }
    split; [cbn [typed_rr tx_name tx_data]; split; [exact PN | apply is_bytes_ok; exact Hc] |]. split.
    + cbn [fits_rr tx_data]. change length_of with (@len N) in *. unfold strings in Hlen. unfold enc_strs in K4. lia.
    + cbn [nonempty_txt tx_data]. destruct FS as (full & last & -> & _ & FL). intros Z. apply (f_equal (@List.length N)) in Z. rewrite concat_app, app_length in Z. cbn [concat List.length] in Z.
      rewrite app_nil_r in Z. unfold length_of in FL. lia.
  - destruct (HN eq_refl) as (ns' & bits' & P' & Lw & B' & E). rewrite E in *. destruct (bitmap_exists bits' B') as (mask & BM).
    assert (CN : CanonName (wire_name ns') (dotted (map lower ns'))) by (pose proof (lower_canon ns' P') as X; rewrite Lw in *; exact X).
    assert (Hbits : is_bytes bits') by (unfold is_bytes in *; rewrite Forall_app in Hdata; tauto).
    apply (G (RR_NSec {| ns_name := o; ns_next := dotted (map lower ns'); ns_types := mask |})); [| reflexivity | reflexivity | apply RD_NSec; [apply lower_plain; exact P' | exact BM] |].
    + split; [| split; exact I]. cbn [typed_rr ns_name ns_next ns_types]. split; [exact PN |]. split; [apply lower_proper_name; exact P' | eapply bitmap_held; eauto].
    + split; [apply RD_NSec; assumption | eapply CR_nsec; eauto].
  - destruct h as [| al [| fl [| i1 [| i2 [| ? ?]]]]]; try (exfalso; unfold length_of in L; cbn [List.length] in L; lia). destruct (bitmap_exists bits B) as (mask & BM).
    subst dd. cbn [app] in *. inversion Hdata as [| ? ? B1 Hd]; subst. inversion Hd as [| ? ? B2 Hd2]; subst.
    inversion Hd2 as [| ? ? B3 Hd3]; subst. inversion Hd3 as [| ? ? B4 Hd4]; subst. inversion Hd4 as [| ? ? B5 Hd5]; subst.
    unfold is_bytes in Hd5. apply Forall_app in Hd5 as [B6 Hd6]. inversion Hd6 as [| ? ? B7 Hd7]; subst. apply Forall_app in Hd7 as [B8 B9]. destruct (u16_bytes i1 i2 B3 B4) as [U V].
    assert (RD : forall Nm, RData Nm false 50 o (RR_NSec3 {| n3_name := o; n3_algo := al; n3_flags := fl; n3_iters := i1 * 256 + i2; n3_salt := salt; n3_next_hash := nh; n3_types := mask |})
      (al :: fl :: i1 :: i2 :: length_of salt :: salt ++ length_of nh :: nh ++ bits)).
    { intros Nm. change (al :: fl :: i1 :: i2 :: ?x) with (al :: fl :: [i1; i2] ++ x). rewrite <- U. apply RD_NSec3. exact BM. }
    eapply G; [| | | apply RD | split; [apply RD | apply (CR_nsec3 [al; fl; i1; i2]); [reflexivity | exact B]]]; try reflexivity.
    split; [cbn [typed_rr n3_name n3_algo n3_flags n3_iters n3_salt n3_next_hash n3_types]; repeat (split; [assumption |]); eapply bitmap_held; eauto |].
    split; [| exact I]. cbn [fits_rr n3_salt n3_next_hash]. unfold is_u8 in B5, B7. lia.
Qed.

Lemma owner_form_unique n ls b b' : OwnerForm n ls b -> OwnerForm n ls b' -> b = b'.
Proof.
  intros [[L ->] | (pre & suf & E & NE & L & ->)] [[L' ->] | (pre' & suf' & E' & NE' & L' & ->)]; try reflexivity.
  - exfalso. subst ls. rewrite app_length in L. destruct pre'; [congruence |]. cbn [List.length] in L. lia.
  - exfalso. subst ls. rewrite app_length in L'. destruct pre; [congruence |]. cbn [List.length] in L'. lia.
  - rewrite E in E'. assert (List.length suf = List.length suf') by lia.
    assert (X : pre ++ suf = pre' ++ suf') by exact E'. assert (LP : List.length pre = List.length pre') by (apply (f_equal (@List.length _)) in X; rewrite !app_length in X; lia).
    clear - X LP. revert pre' X LP. induction pre as [| x pre IH]; intros [| x' pre'] X LP; cbn in *; try discriminate; [congruence |]. injection X as _ X. apply (IH pre' X). congruence.
Qed.
Lemma owner_same s w r b : proper (wr_owner w) -> NsecOwner s w -> Means w r -> (OwnerWire s r b <-> OwnerForm (rs_labels s) (wr_owner w) b).
Proof.
  intros P NS (_ & N & T & _). unfold OwnerWire. rewrite N, T.
  assert (PL := proper_lower _ P).
  assert (U : forall ls, proper ls -> dotted (map lower (wr_owner w)) = dotted ls -> ls = map lower (wr_owner w)).
  { intros ls Hl E. eapply labelsof_inj; [apply proper_labels; exact Hl |]. rewrite <- E. apply proper_labels. exact PL. }
  split.
  - intros (ls & Hl & E & C). apply U in E; [subst ls | exact Hl]. destruct C as [[[L | L] ->] | (N47 & pre & suf & E & NE & L & ->)].
    + left. rewrite map_length in L. auto.
    + exact (NS L).
    + right. destruct (map_eq_app _ _ _ _ E) as (p & q & E1 & E2 & E3). exists p, q. subst pre suf. rewrite map_length in L.
      split; [exact E1 |]. split; [intros ->; apply NE; reflexivity |]. auto.
  - intros F. exists (map lower (wr_owner w)). split; [exact PL |]. split; [reflexivity |].
    destruct (N.eq_dec (wr_type w) 47) as [E | E].
    + left. split; [right; exact E |]. eapply owner_form_unique; [exact F | exact (NS E)].
    + destruct F as [[L ->] | (pre & suf & E1 & NE & L & ->)].
      * left. rewrite map_length. auto.
      * right. split; [exact E |]. exists (map lower pre), (map lower suf). rewrite E1, map_app, map_length. split; [reflexivity |].
        split; [destruct pre; [congruence | discriminate] |]. auto.
Qed.
Lemma record_same s w r b : proper (wr_owner w) -> NsecOwner s w -> Means w r -> (RecordWire s r b <-> CanonicalForm s w b).
Proof.
  intros P NS M. pose proof M as (_ & N & T & _ & D). unfold RecordWire, CanonicalForm. rewrite <- T. split.
  - intros (o & d & O & D1 & D2 & ->). exists o, d. split; [apply (owner_same _ _ _ _ P NS M); exact O |]. split; [rewrite T; apply D; split; assumption | reflexivity].
  - intros (o & d & O & D1 & ->). rewrite T in D1. apply D in D1 as [D1 D2]. exists o, d. split; [apply (owner_same _ _ _ _ P NS M); exact O | auto].
Qed.
Definition Fit (s : rrsig) (w : wire_rr) : Prop := proper (wr_owner w) /\ NsecOwner s w.
Lemma signed_same s ws rs msg : Forall (Fit s) ws -> Forall2 Means ws rs -> (SignedWire s rs msg <-> SignedOctets s ws msg).
Proof.
  intros F M. unfold SignedWire, SignedOctets.
  assert (G : forall p, Forall2 (RecordWire s) rs p <-> Forall2 (CanonicalForm s) ws p).
  { induction M as [| w r ws rs M1 M IH]; intros p.
    - split; intros H; inversion H; constructor.
    - inversion F as [| ? ? [P NS] F']; subst. split; intros H; inversion H; subst; constructor; try (apply (IH F'); assumption); eapply record_same; eauto. }
  split; intros (sg & p & A & B & C); exists sg, p; (split; [exact A |]); (split; [apply G; exact B | exact C]).
Qed.
Lemma order_same ws rs : Forall2 Means ws rs -> (CanonicalOrder rs <-> InCanonicalOrder ws).
Proof.
  intros M. assert (K : forall w r w' r', Means w r -> Means w' r' -> (RDataLe r r' <-> exists da db, CanonicalRData (wr_type w) (wr_data w) da /\ CanonicalRData (wr_type w') (wr_data w') db /\ (da = db \/ lex N.lt da db))).
  { intros w r w' r' (_ & _ & _ & _ & D) (_ & _ & _ & _ & D'). unfold RDataLe. split; intros (a & b & A & B & C); exists a, b; (split; [apply D; exact A |]); (split; [apply D'; exact B | exact C]). }
  unfold CanonicalOrder, InCanonicalOrder. induction M as [| w r ws rs M1 M IH]; [split; constructor |].
  assert (Q : Forall (RDataLe r) rs <-> Forall (fun b => exists da db, CanonicalRData (wr_type w) (wr_data w) da /\ CanonicalRData (wr_type b) (wr_data b) db /\ (da = db \/ lex N.lt da db)) ws).
  { clear IH. induction M as [| w' r' ws rs M2 M IHM]; [split; constructor |]. split; intros H; inversion H; subst; constructor; try (apply IHM; assumption); eapply K; eauto. }
  split; intros H; inversion H; subst; constructor; try (apply IH; assumption); apply Q; assumption.
Qed.
Lemma forall2_perm {A B} (R : A -> B -> Prop) l m : Forall2 R l m -> forall l', Permutation l l' -> exists m', Permutation m m' /\ Forall2 R l' m'.
Proof.
  intros F l' P. revert m F. induction P; intros m F.
  - exists m. split; [reflexivity | exact F].
  - inversion F; subst. destruct (IHP _ H3) as (m' & P' & F'). exists (y :: m'). split; [constructor; exact P' | constructor; assumption].
  - inversion F as [| ? ? ? ? F1 F2]; subst. inversion F2; subst. exists (y1 :: y0 :: l'0). split; [constructor | constructor; [assumption | constructor; assumption]].
  - destruct (IHP1 _ F) as (m1 & Q1 & F1). destruct (IHP2 _ F1) as (m2 & Q2 & F2). exists m2. split; [eapply perm_trans; eauto | exact F2].
Qed.
Lemma forall2_length {A B} (R : A -> B -> Prop) l m : Forall2 R l m -> List.length l = List.length m.
Proof. induction 1; cbn; congruence. Qed.
Lemma forall2_flip {A B} (R : A -> B -> Prop) l m : Forall2 R l m -> Forall2 (fun b a => R a b) m l.
Proof. induction 1; constructor; auto. Qed.
Lemma means_types s ws rs : Forall2 Means ws rs -> (Forall (fun r => rr_ty r = rs_ty s) rs <-> Forall (fun w => wr_type w = rs_ty s) ws).
Proof. induction 1 as [| w r ws rs (_ & _ & T & _) M IH]; [split; constructor |]. split; intros H; inversion H; subst; constructor; try congruence; apply IH; assumption. Qed.
Lemma means_stream dbg ws rs : Forall2 Means ws rs -> is_bytes (concat (map wr_octets ws)) -> parse_rr_stream dbg (concat (map wr_octets ws)) = Ok rs.
Proof.
  intros M HB. apply parse_stream_complete. clear HB. induction M as [| w r ws rs (_ & _ & _ & R & _) M IH]; [constructor |].
  cbn [map concat]. econstructor; [| exact IH]. revert R. destruct dbg; [exact (fun x => x) |]. cbn [negb].
  generalize (wr_octets w), (wr_ttl w). intros b t R. destruct R as [nb o ty ttl r data N R]. apply (RecordEnc_intro _ _ _ o); [exact N |]. inversion R; subst; constructor; auto; destruct H0; auto.
Qed.

(** ** When the order of the validator is the canonical one *)
Lemma forall2_in_r {A B} (R : A -> B -> Prop) l m y : Forall2 R l m -> In y m -> exists x, In x l /\ R x y.
Proof. induction 1 as [| a b l m H F IH]; intros I; [destruct I |]. destruct I as [<- | I]; [exists a; split; [left; reflexivity | exact H] |]. destruct (IH I) as (x & X1 & X2). exists x. split; [right; exact X1 | exact X2]. Qed.
Lemma canonical_sort_when rs ordered : (forall a b, In a rs -> In b rs -> (rr_le a b <-> RDataLe a b)) ->
  (Permutation rs ordered /\ CanonicalOrder ordered <-> ordered = sort_by rr_cmp rs).
Proof.
  intros H. assert (K : forall l, Permutation rs l -> (CanonicalOrder l <-> StronglySorted rr_le l)).
  { intros l Pl. apply sorted_iff. intros a b Ha Hb. apply (Permutation_in _ (Permutation_sym Pl)) in Ha, Hb. symmetry. apply H; assumption. }
  split.
  - intros [P C]. apply (K _ P) in C. apply sort_of_sorted in C. rewrite <- C. symmetry. apply sort_unique. exact P.
  - intros ->. split; [apply sort_perm |]. apply K; [apply sort_perm | apply sort_sorted].
Qed.
Lemma target_data r d : In (rr_ty r) [2; 5; 39] -> RDataOf r d -> exists ls, proper ls /\ d = wire_name ls /\ target r = dotted ls.
Proof.
  intros T [D _]. assert (C : CanonName d (target r)).
  { destruct r; cbn [rr_ty] in T, D; try (exfalso; vm_compute in T; repeat (destruct T as [T | T]; [discriminate T |]); exact T); inversion D; subst;
      match goal with H : false = true \/ _ |- _ => destruct H as [H | H]; [discriminate H | subst] end; rewrite app_nil_r; assumption. }
  destruct C as (ls & P & -> & E & _). exists ls. auto.
Qed.
Lemma rr_le_target a b : In (rr_ty a) [2; 5; 39] -> rr_ty a = rr_ty b -> rr_name a = rr_name b -> (rr_le a b <-> octets_le (target a) (target b)).
Proof.
  intros T TT N. rewrite <- octets_le_cmp. unfold rr_le.
  destruct a, b; cbn [rr_ty] in T, TT; try discriminate TT; try (exfalso; vm_compute in T; repeat (destruct T as [T | T]; [discriminate T |]); exact T); cbn [rr_cmp target rr_name] in *; unfold pair_cmp; rewrite N, bytes_cmp_refl; reflexivity.
Qed.
Lemma wire_dotted_eq ls ls' : proper ls -> proper ls' -> (wire_name ls = wire_name ls' <-> dotted ls = dotted ls').
Proof.
  intros P P'. split; intros E.
  - rewrite !wire_name_labels in E. apply wl_whole, app_inj_tail in E as [-> _]. reflexivity.
  - f_equal. apply (labelsof_inj (dotted ls)); [apply proper_labels; exact P |]. rewrite E. apply proper_labels. exact P'.
Qed.
Lemma names_le a b : wf_rr a -> wf_rr b -> In (rr_ty a) [2; 5; 39] -> rr_ty a = rr_ty b -> rr_name a = rr_name b ->
  (lex N.lt (target a) (target b) <-> lex N.lt (rdata a) (rdata b)) -> (rr_le a b <-> RDataLe a b).
Proof.
  intros Wa Wb T TT N L. rewrite rr_le_target by assumption. rewrite rdata_le by assumption.
  destruct (target_data a (rdata a) T) as (la & Pa & Da & Ta); [apply rdata_of; auto |]. destruct (target_data b (rdata b)) as (lb & Pb & Db & Tb); [rewrite <- TT; exact T | apply rdata_of; auto |].
  unfold octets_le. rewrite L, Ta, Tb, Da, Db. rewrite (wire_dotted_eq la lb Pa Pb). reflexivity.
Qed.
Lemma orderly_le ws rs o ty : Forall2 Means ws rs -> Forall (fun w => dotted (map lower (wr_owner w)) = o /\ wr_type w = ty) ws -> Orderly ws ->
  forall a b, In a rs -> In b rs -> (rr_le a b <-> RDataLe a b).
Proof.
  intros M HO H a b Ia Ib.
  destruct (forall2_in_r _ _ _ _ M Ia) as (wa & Iwa & Ma). destruct (forall2_in_r _ _ _ _ M Ib) as (wb & Iwb & Mb). rewrite Forall_forall in HO.
  destruct (HO wa Iwa) as [Oa Ta], (HO wb Iwb) as [Ob Tb]. destruct Ma as (Wa & Na & TTa & _ & Da), Mb as (Wb & Nb & TTb & _ & Db).
  assert (EN : rr_name a = rr_name b) by congruence. assert (ET : rr_ty a = rr_ty b) by congruence.
  destruct H as [H | [H | H]].
  - apply forall2_length in M. assert (a = b) as -> by (destruct rs as [| r [| r' rs]]; [destruct Ia | destruct Ia as [<- | []], Ib as [<- | []]; reflexivity | cbn [List.length] in M; lia]).
    rewrite rdata_le by assumption. unfold rr_le, octets_le. split; [left; reflexivity |]. intros _. rewrite (proj2 (rr_cmp_eq b b) eq_refl). discriminate.
  - rewrite Forall_forall in H. apply rr_le_rdata; auto. rewrite TTa. apply H. exact Iwa.
  - destruct (H wa wb Iwa Iwb) as [T K]. rewrite <- TTa in T. apply names_le; try assumption.
    destruct (target_data a (rdata a) T) as (la & Pa & E1 & E2); [apply rdata_of; auto |]. destruct (target_data b (rdata b)) as (lb & Pb & E3 & E4); [rewrite <- ET; exact T | apply rdata_of; auto |].
    assert (Ca : RDataOf a (rdata a)) by (apply rdata_of; auto). assert (Cb : RDataOf b (rdata b)) by (apply rdata_of; auto). apply Da, canonical_name in Ca as (la' & Pa' & F1 & F2); [| rewrite <- TTa; exact T].
    apply Db, canonical_name in Cb as (lb' & Pb' & F3 & F4); [| rewrite <- TTb, <- ET; exact T]. specialize (K la' lb' Pa' Pb' F1 F3). unfold SameOrder in K.
    rewrite E2, E4, F2, F4. rewrite F2 in E1. rewrite F4 in E3. apply (wire_dotted_eq _ _ (proper_lower _ Pa') Pa) in E1. apply (wire_dotted_eq _ _ (proper_lower _ Pb') Pb) in E3. rewrite <- E1, <- E3. exact K.
Qed.
Lemma wire_checked dbg e s keys ws : Held (RR_RRSig s) -> proper_name (rs_key_name s) -> Forall (fun k => is_bytes (dk_pubkey k)) keys -> LegalSet ws ->
  Forall FullStrings ws -> Forall LowerNext ws -> Forall (NsecOwner s) ws -> Orderly ws ->
  exists rs, parse_rr_stream dbg (concat (map wr_octets ws)) = Ok rs /\ (verify_rrsig e false s keys rs = Ok tt <-> RfcValid e s keys ws).
Proof.
  intros HS HK HKs (HL & o & ty & HO) HT HN HNs HP.
  assert (M : exists rs, Forall2 Means ws rs).
  { clear HO HNs HP. induction ws as [| w ws IH]; [exists []; constructor |]. inversion HL as [| ? ? (A & B & C) HL']; subst. inversion HT; subst. inversion HN; subst.
    destruct (means_exists w A B C) as (r & Mr); auto. destruct IH as (rs & Mrs); auto. exists (r :: rs). constructor; assumption. }
  destruct M as (rs & M). exists rs.
  assert (HB : is_bytes (concat (map wr_octets ws))).
  { clear - HL. induction HL as [| w ws (A & _) HL IH]; [constructor |]. cbn [map concat]. apply Forall_app. split; assumption. }
  split; [apply means_stream; assumption |].
  assert (W : Forall wf_rr rs) by (clear - M; induction M as [| w r ws rs (A & _) M IH]; constructor; assumption).
  assert (HF : Forall (Fit s) ws) by (rewrite Forall_forall in *; intros w I; split; [apply (HL w I) | apply (HNs w I)]).
  assert (HNm : Forall (fun r => rr_name r = dotted o) rs).
  { clear - M HO. induction M as [| w r ws rs (_ & N & _) M IH]; [constructor |]. inversion HO as [| ? ? [E _] HO']; subst. constructor; auto. }
  assert (HR : forall a b, In a rs -> In b rs -> (rr_le a b <-> RDataLe a b)).
  { apply (orderly_le ws rs (dotted o) ty); try assumption. rewrite Forall_forall in *. intros w I. destruct (HO w I) as [<- <-]. auto. }
  rewrite verify_rrsig_wire by assumption. unfold RfcValid. rewrite (means_types s ws rs M). split; intros (A & k & msg & H); (split; [exact A |]); exists k, msg.
  - destruct H as (B & C & D). destruct (proj2 (canonical_sort_when rs (sort_by rr_cmp rs) HR) eq_refl) as [P O].
    destruct (forall2_perm _ _ _ (forall2_flip _ _ _ M) _ P) as (ws' & P' & F'). apply forall2_flip in F'. exists ws'.
    assert (HF' : Forall (Fit s) ws') by (eapply Permutation_Forall; eauto).
    split; [exact B |]. split; [exact P' |]. split; [apply (order_same ws' _ F'); exact O |]. split; [apply (signed_same s ws' _ msg HF' F'); exact C | exact D].
  - destruct H as (ord & B & P & O & C & D). destruct (forall2_perm _ _ _ M _ P) as (rs' & P' & F'). assert (HF' : Forall (Fit s) ord) by (eapply Permutation_Forall; eauto).
    assert (E : rs' = sort_by rr_cmp rs) by (apply canonical_sort_when; [exact HR |]; split; [exact P' | apply (order_same ord rs' F'); exact O]).
    rewrite <- E. split; [exact B |]. split; [apply (signed_same s ord rs'); assumption | exact D].
Qed.

(** ** NS, CNAME and DNAME RRsets: exactly when the order is canonical *)
Lemma sorted_pair {A} (R S : A -> A -> Prop) l a b : StronglySorted R l -> StronglySorted S l -> In a l -> In b l -> a = b \/ (R a b /\ S a b) \/ (R b a /\ S b a).
Proof.
  induction l as [| x l IH]; intros HR HS Ia Ib; [destruct Ia |]. inversion HR as [| ? ? HR1 HR2]; subst. inversion HS as [| ? ? HS1 HS2]; subst. rewrite Forall_forall in HR2, HS2.
  destruct Ia as [<- | Ia], Ib as [<- | Ib]; auto.
Qed.
Lemma order_pair t u d f : (t = u <-> d = f) -> octets_le t u -> octets_le d f -> (lex N.lt t u <-> lex N.lt d f).
Proof.
  intros E [H | H] [H' | H']; (split; intros X); try assumption; exfalso.
  all: try (apply E in H'; rewrite H' in X; exact (lex_irrefl N.lt N.lt_irrefl _ X)). all: try (rewrite H in X; exact (lex_irrefl N.lt N.lt_irrefl _ X)). all: try (apply E in H; rewrite H in X; exact (lex_irrefl N.lt N.lt_irrefl _ X)).
  all: try (apply E in H'; rewrite H' in H; exact (lex_irrefl N.lt N.lt_irrefl _ H)). all: apply E in H; rewrite H in H'; exact (lex_irrefl N.lt N.lt_irrefl _ H').
Qed.
Lemma names_exact rs n ty : Forall wf_rr rs -> Forall (fun r => rr_name r = n /\ rr_ty r = ty) rs -> In ty [2; 5; 39] ->
  (CanonicalOrder (sort_by rr_cmp rs) <-> forall a b da db, In a rs -> In b rs -> RDataOf a da -> RDataOf b db -> (lex N.lt (target a) (target b) <-> lex N.lt da db)).
Proof.
  intros W NT T. rewrite Forall_forall in W, NT. split.
  - intros C a b da db Ia Ib Da Db. apply rdata_of in Da; [| apply W; exact Ia]. apply rdata_of in Db; [| apply W; exact Ib]. subst da db.
    destruct (NT a Ia) as [Na Ta], (NT b Ib) as [Nb Tb].
    assert (Ja : In a (sort_by rr_cmp rs)) by (apply (Permutation_in _ (sort_perm rr_cmp rs)); exact Ia). assert (Jb : In b (sort_by rr_cmp rs)) by (apply (Permutation_in _ (sort_perm rr_cmp rs)); exact Ib).
    assert (Ta' : In (rr_ty a) [2; 5; 39]) by (rewrite Ta; exact T). assert (Tb' : In (rr_ty b) [2; 5; 39]) by (rewrite Tb; exact T).
    destruct (target_data a (rdata a) Ta') as (la & Pa & Da & Aa); [apply rdata_of; auto |]. destruct (target_data b (rdata b) Tb') as (lb & Pb & Db & Ab); [apply rdata_of; auto |].
    assert (EQ : target a = target b <-> rdata a = rdata b) by (rewrite Aa, Ab, Da, Db; symmetry; apply wire_dotted_eq; assumption).
    destruct (sorted_pair _ _ _ a b (sort_sorted rs) C Ja Jb) as [-> | [[R S] | [R S]]].
    + split; intros X; exfalso; exact (lex_irrefl N.lt N.lt_irrefl _ X).
    + rewrite rr_le_target in R by (auto; congruence). rewrite rdata_le in S by auto. apply (order_pair _ _ _ _ EQ R S).
    + rewrite rr_le_target in R by (auto; congruence). rewrite rdata_le in S by auto.
      assert (EQ' : target b = target a <-> rdata b = rdata a) by (split; intros X; symmetry; apply EQ; symmetry; exact X).
      pose proof (order_pair _ _ _ _ EQ' R S) as K. split; intros X; exfalso; [destruct R as [R | R] | destruct S as [S | S]].
      * rewrite R in X. exact (lex_irrefl N.lt N.lt_irrefl _ X).
      * exact (lex_irrefl N.lt N.lt_irrefl _ (lex_trans N.lt N.lt_trans _ _ _ X R)).
      * rewrite S in X. exact (lex_irrefl N.lt N.lt_irrefl _ X).
      * exact (lex_irrefl N.lt N.lt_irrefl _ (lex_trans N.lt N.lt_trans _ _ _ X S)).
  - intros H. assert (HR : forall a b, In a rs -> In b rs -> (rr_le a b <-> RDataLe a b)).
    { intros a b Ia Ib. destruct (NT a Ia) as [Na Ta], (NT b Ib) as [Nb Tb]. apply names_le; auto; try congruence. apply H; auto; apply rdata_of; auto. }
    exact (proj2 (proj2 (canonical_sort_when rs (sort_by rr_cmp rs) HR) eq_refl)).
Qed.

(** Names of the same shape: label by label of the same length. *)
Lemma lex_app_same {A} (lt : A -> A -> Prop) c a b : (forall x, ~ lt x x) -> (lex lt (c ++ a) (c ++ b) <-> lex lt a b).
Proof.
  intros I. induction c as [| x c IH]; [reflexivity |]. cbn [app]. rewrite <- IH. split; intros H; [| apply lex_later; exact H].
  inversion H; subst; [exfalso; eapply I; eassumption | assumption].
Qed.
Lemma lex_cons_same {A} (lt : A -> A -> Prop) x a b : (forall x, ~ lt x x) -> (lex lt (x :: a) (x :: b) <-> lex lt a b).
Proof. exact (lex_app_same lt [x] a b). Qed.
Lemma lex_same_length {A} (lt : A -> A -> Prop) : forall a b x y, List.length a = List.length b -> a <> b -> (lex lt (a ++ x) (b ++ y) <-> lex lt a b).
Proof.
  induction a as [| c a IH]; intros [| d b] x y L NE; try discriminate L; [congruence |]. cbn [app]. split; intros H; inversion H; subst.
  - apply lex_here. assumption.
  - apply lex_later. apply (IH b x y); [cbn in L; lia | congruence | assumption].
  - apply lex_here. assumption.
  - apply lex_later. apply (IH b x y); [cbn in L; lia | congruence | assumption].
Qed.
Lemma same_shape a b : map (@List.length N) a = map (@List.length N) b -> SameOrder a b.
Proof.
  unfold SameOrder. intros H. assert (K : forall a b, map (@List.length N) a = map (@List.length N) b -> (lex N.lt (dots a) (dots b) <-> lex N.lt (wire_name a) (wire_name b))).
  { clear. induction a as [| l a IH]; intros [| m b] H; try discriminate H.
    - split; intros X; exfalso; exact (lex_irrefl N.lt N.lt_irrefl _ X).
    - cbn [map] in H. injection H as L H. rewrite !dots_cons. unfold wire_name, wire_labels. cbn [flat_map app]. rewrite L, <- !app_assoc. rewrite (lex_cons_same N.lt (N.of_nat (List.length m)) _ _ N.lt_irrefl).
      destruct (list_eq_dec N.eq_dec l m) as [-> | NE].
      + rewrite !(lex_app_same N.lt m _ _ N.lt_irrefl). rewrite (lex_cons_same N.lt 46 _ _ N.lt_irrefl). exact (IH b H).
      + rewrite !(lex_same_length N.lt l m) by assumption. reflexivity. }
  destruct a as [| l a], b as [| m b]; try discriminate H; [| apply K; exact H]. split; intros X; exfalso; exact (lex_irrefl N.lt N.lt_irrefl _ X).
Qed.
