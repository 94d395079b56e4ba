(** The signed data of well-formed records is the RFC 4034 byte string. *)
From Verif Require Import Base NameM WireM RRM ValM BaseP NameSpec WireSpec BitmapSpec RecSpec CodecSpec
  NameP WireP BitmapP RecP RecP2 ValSpec ValP SignedSpec.
From Coq Require Import Permutation.
Local Open Scope N_scope.

Lemma canon_name_inj n n' b : CanonName b n -> CanonName b n' -> n = n'.
Proof.
  intros H H'. apply Canon_plain in H, H'.
  destruct (NamePlain_unambiguous b n [] b n' [] H H' eq_refl) as (_ & E & _). exact E.
Qed.

Lemma canon_name_unique b b' n : CanonName b n -> CanonName b' n -> b = b'.
Proof.
  intros (ls & H1 & H2 & H3 & H4) (ls' & H1' & H2' & H3' & H4'). rewrite H2, H2'.
  rewrite <- (write_name_proper ls), <- (write_name_proper ls'); try apply H1; try apply H1'; congruence.
Qed.

Lemma write_data_canon r : wf_rr r -> exists data, write_data r = u16 (len data) ++ data /\ len data <= 65535 /\
  bytes_ok data = true /\ RData CanonName false (rr_ty r) (rr_name r) r data /\ CanonRData (rr_ty r) data.
Proof.
  intros H. pose proof H as (HT & HF & HN). destruct (write_data_enc r H) as (data & H1 & H2 & H3 & H4).
  destruct r as [x|x|x|x|x|x|x|x|x|x|x|x].
  all: try (exists data; split; [exact H1|split; [exact H2|split; [exact H3|split; [exact H4|]]]]; cbn [rr_ty]; apply CR_plain; cbn; tauto).
  - exists data. split; [exact H1|split; [exact H2|split; [exact H3|split; [exact H4|]]]].
    inversion H4; subst. match goal with G : _ \/ _ = [] |- _ => destruct G as [G|G]; [discriminate|subst] end. rewrite app_nil_r.
    eapply CR_name; [cbn; tauto|eassumption].
  - (* Txt *)
    destruct x as [nm d]. cbn [nonempty_txt tx_data fits_rr typed_rr tx_name] in *. destruct HT as [T1 T2].
    destruct (txt_loop_strs (List.length d) d HN ltac:(lia)) as (strs & K1 & K2 & K3).
    destruct (full_strings_size _ K1) as [K4 _]. rewrite K2 in K4. change length_of with (@len N) in HF.
    assert (K5 : len (enc_strs strs) <= 65535) by lia.
    exists (enc_strs strs). cbn [write_data]. rewrite (txt_write_spec _ _ strs) by auto.
    split; [reflexivity|]. split; [exact K5|]. split; [|split].
    + apply full_strings_bytes; auto. rewrite K2. apply is_bytes_ok. auto.
    + cbn [rr_ty rr_name tx_name]. rewrite <- K2. apply RD_Txt.
    + apply (CR_txt strs). exact K1.
  - exists data. split; [exact H1|split; [exact H2|split; [exact H3|split; [exact H4|]]]].
    inversion H4; subst. match goal with G : _ \/ _ = [] |- _ => destruct G as [G|G]; [discriminate|subst] end. rewrite app_nil_r.
    eapply CR_name; [cbn; tauto|eassumption].
  - exists data. split; [exact H1|split; [exact H2|split; [exact H3|split; [exact H4|]]]].
    inversion H4; subst. match goal with G : _ \/ _ = [] |- _ => destruct G as [G|G]; [discriminate|subst] end. rewrite app_nil_r.
    eapply CR_name; [cbn; tauto|eassumption].
  - exists data. split; [exact H1|split; [exact H2|split; [exact H3|split; [exact H4|]]]].
    inversion H4; subst. cbn [rr_ty].
    eapply (CR_sig (u16 ty ++ a :: l :: u32 ttl ++ u32 ex ++ u32 inc ++ u16 tag) b n s) in H5; [|reflexivity].
    cbn [u16 u32 app] in *. exact H5.
  - (* NSEC *)
    destruct x as [nm nx m]. destruct HT as (T1 & T2 & T3). cbn [ns_types ns_next ns_name] in *.
    destruct (write_bitmap_canonical m (proj1 T3)) as (bl & B1 & B2 & B3).
    exists data. split; [exact H1|split; [exact H2|split; [exact H3|split; [exact H4|]]]].
    cbn [write_data] in H1. unfold nsec_write in H1. cbn [ns_next ns_types] in H1.
    apply app_inv_len in H1 as [_ H1]; [|reflexivity]. rewrite <- H1. cbn [rr_ty].
    eapply CR_nsec; [apply write_name_canon; eauto|]. exists bl. auto.
  - destruct x as [nm al fl it salt nh m]. destruct HT as (T1 & T2 & T3 & T4 & T5 & T6 & T7). cbn [n3_types n3_salt n3_next_hash fits_rr] in *.
    destruct (write_bitmap_canonical m (proj1 T7)) as (bl & B1 & B2 & B3).
    exists data. split; [exact H1|split; [exact H2|split; [exact H3|split; [exact H4|]]]].
    cbn [write_data] in H1. unfold nsec3_write in H1. cbn [n3_algo n3_flags n3_iters n3_salt n3_next_hash n3_types] in H1.
    apply app_inv_len in H1 as [_ H1]; [|reflexivity]. rewrite <- H1. cbn [rr_ty].
    destruct HF as [F1 F2]. change length_of with (@len N) in *. rewrite !as_u8_small by lia.
    change (CanonRData T_NSEC3 ((al :: fl :: be16 it) ++ length_of salt :: salt ++ length_of nh :: nh ++ write_nsec_types_bitmap m)).
    apply CR_nsec3; [reflexivity|]. exists bl. auto.
Qed.

Lemma rdata_canon_unique r data : wf_rr r -> RData CanonName false (rr_ty r) (rr_name r) r data -> CanonRData (rr_ty r) data ->
  bytes_ok data = true -> len data <= 65535 -> write_data r = u16 (len data) ++ data.
Proof.
  intros H HR HC Hb HL. eapply canon_preserved; eauto. eapply RData_ext; [|exact HR]. apply Canon_plain.
Qed.

Lemma rdata_unique r ty o data data' : RData CanonName false ty o r data -> CanonRData ty data ->
  RData CanonName false ty o r data' -> CanonRData ty data' -> data = data'.
Proof.
  intros H HC H' HC'.
  assert (BU : forall bits bits' m, BitmapEnc bits m -> BitmapEnc bits' m -> canonical_bitmap bits -> canonical_bitmap bits' -> bits = bits').
  { intros bits bits' m B B' C C'. apply read_bitmap_spec in B, B'.
    rewrite <- (canonical_written bits m C B), <- (canonical_written bits' m C' B'). reflexivity. }
  assert (TR : forall strs strs' : list (list N), flat_map (fun s => length_of s :: s) strs = flat_map (fun s => length_of s :: s) strs' -> concat strs = concat strs').
  { intros strs strs' E.
    assert (R1 := txt_read_complete strs (List.length (flat_map (fun s => length_of s :: s) strs)) [] ltac:(lia)).
    assert (R2 := txt_read_complete strs' (List.length (flat_map (fun s => length_of s :: s) strs)) []).
    rewrite <- E in R2. specialize (R2 ltac:(lia)). rewrite R2 in R1. cbn in R1. congruence. }
  destruct H; inversion H'; subst; auto;
    try (repeat match goal with G : _ \/ _ = [] |- _ => destruct G as [G|G]; [discriminate|subst] end;
         rewrite !app_nil_r; eapply canon_name_unique; eassumption).
  - inversion HC; subst; try (exfalso; cbn in *; lia). inversion HC'; subst; try (exfalso; cbn in *; lia).
    f_equal. apply full_strings_unique; auto.
    etransitivity; [apply TR; eassumption|]. etransitivity; [|symmetry; apply TR; eassumption]. auto.
  - rewrite (canon_name_unique b b0 n) by assumption. reflexivity.
  - apply canon_nsec_inv in HC as (x & y & z & E & K1 & K2). apply canon_nsec_inv in HC' as (x' & y' & z' & E' & K1' & K2').
    match goal with G : CanonName b n |- _ => pose proof (NamePlain_unambiguous _ _ _ _ _ _ (Canon_plain _ _ G) (Canon_plain _ _ K1) E) as (_ & _ & <-) end.
    match goal with G : CanonName b0 n |- _ => pose proof (NamePlain_unambiguous _ _ _ _ _ _ (Canon_plain _ _ G) (Canon_plain _ _ K1') E') as (_ & _ & <-) end.
    rewrite (canon_name_unique b b0 n) by assumption. f_equal. eapply BU; eassumption.
  - apply canon_nsec3_inv in HC as (h & x & y & z & E & K1 & K2). apply canon_nsec3_inv in HC' as (h' & x' & y' & z' & E' & K1' & K2').
    do 3 f_equal.
    assert (Z : forall bits h x y z, al :: fl :: u16 it ++ length_of salt :: salt ++ length_of nh :: nh ++ bits
                  = h ++ length_of x :: x ++ length_of y :: y ++ z -> length_of h = 4 -> bits = z).
    { clear. intros bits h x y z E K. change length_of with (@len N) in *.
      change (al :: fl :: u16 it ++ ?q) with ((al :: fl :: u16 it) ++ q) in E.
      apply app_inv_len in E as [_ E]; [|rewrite K; reflexivity].
      apply (lp_inv salt x) in E as [<- E]. apply (lp_inv nh y) in E as [_ E]. exact E. }
    apply Z in E; [|exact K1]. apply Z in E'; [|exact K1']. subst. do 4 f_equal. eapply BU; eassumption.
Qed.

Lemma owner_wire s r b : proper_name (rr_name r) -> (SignedOwner s r b <-> OwnerWire s r b).
Proof.
  intros (ls & P & E & Lw).
  assert (HL : LabelsOf (rr_name r) ls).
  { split; [exact E|]. destruct P as [P1 P2]. split.
    - eapply Forall_impl; [|exact P1]. cbn. tauto.
    - intros ->. inversion P1 as [|? ? [Hn _] _]. congruence. }
  assert (W : write_name (rr_name r) = wire_name ls).
  { rewrite E in *. apply write_name_proper; [apply P|exact Lw]. }
  assert (WS : forall pre suf, ls = pre ++ suf -> write_name (dotted suf) = wire_name suf).
  { intros pre suf ->. apply write_name_proper.
    - destruct P as [P _]. apply Forall_app in P. apply P.
    - destruct suf as [|x suf]; [reflexivity|]. rewrite E in Lw.
      assert (D : dotted (pre ++ x :: suf) = dots (pre ++ x :: suf)) by (destruct pre; reflexivity).
      rewrite D, dots_app in Lw. unfold lower in Lw. rewrite map_app in Lw.
      apply app_inv_len in Lw as [_ Lw]; [exact Lw|]. apply len_map. }
  split.
  - intros H. exists ls. split; [exact P|]. split; [exact E|]. inversion H as [ls' Hl Hn|Hn|pre suf Ht Hl Hp Hn]; subst.
    + left. rewrite (labelsof_inj _ _ _ HL Hl) in *. auto.
    + left. auto.
    + right. split; [exact Ht|]. pose proof (labelsof_inj _ _ _ HL Hl) as EL. exists pre, suf.
      split; [exact EL|]. split; [exact Hp|]. split; [exact Hn|]. cbn [app]. rewrite (WS pre suf EL). reflexivity.
  - intros (ls' & P' & E' & H).
    assert (ls' = ls) as ->.
    { eapply labelsof_inj; [|exact HL]. split; [exact E'|]. destruct P' as [P1 P2]. split.
      - eapply Forall_impl; [|exact P1]. cbn. tauto.
      - intros ->. inversion P1 as [|? ? [Hn _] _]. congruence. }
    destruct H as [[[Hn|Hn] ->]|(Ht & pre & suf & EL & Hp & Hn & ->)].
    + rewrite <- W. eapply SO_exact; eauto.
    + rewrite <- W. apply SO_nsec. auto.
    + rewrite <- (WS pre suf EL). apply (SO_wildcard s r pre suf); auto. rewrite <- EL. exact HL.
Qed.

Lemma wf_owner r : wf_rr r -> proper_name (rr_name r).
Proof. intros (H & _ & _). destruct r; apply H. Qed.

Lemma record_wire s r b : wf_rr r -> (SignedRR s r b <-> RecordWire s r b).
Proof.
  intros H. destruct (write_data_canon r H) as (data & W & L & Bo & R & C). unfold SignedRR, RecordWire. split.
  - intros (o & H1 & ->). exists o, data. split; [apply owner_wire; auto using wf_owner|]. split; [exact R|]. split; [exact C|].
    rewrite W. reflexivity.
  - intros (o & d & H1 & R' & C' & ->). exists o. split; [apply owner_wire; auto using wf_owner|].
    rewrite (rdata_unique _ _ _ _ _ R C R' C') in *. rewrite W. reflexivity.
Qed.

Lemma forall2_iff {A B} (P Q : A -> B -> Prop) l m : Forall (fun a => forall b, P a b <-> Q a b) l -> (Forall2 P l m <-> Forall2 Q l m).
Proof.
  intros H. revert m. induction H as [|a l Ha Hl IH]; intros m; split; intros F; inversion F; subst; constructor;
    try (apply Ha; assumption); apply IH; assumption.
Qed.

Lemma signed_wire s rs msg : proper_name (rs_key_name s) -> Forall wf_rr rs -> (SignedData s rs msg <-> SignedWire s rs msg).
Proof.
  intros Hk Hr. unfold SignedData, SignedWire, rrsig_rdata.
  assert (F : forall ps, Forall2 (SignedRR s) rs ps <-> Forall2 (RecordWire s) rs ps).
  { intros ps. apply forall2_iff. eapply Forall_impl; [|exact Hr]. intros r Hw b. apply record_wire; auto. }
  pose proof (write_name_canon _ Hk) as KC. split.
  - intros (ps & H & ->). exists (write_name (rs_key_name s)), ps. split; [exact KC|]. split; [apply F; auto|].
    repeat rewrite <- app_assoc. reflexivity.
  - intros (sg & ps & H1 & H2 & ->). exists ps. split; [apply F; auto|].
    rewrite (canon_name_unique _ _ _ H1 KC). repeat rewrite <- app_assoc. reflexivity.
Qed.

Lemma wf_held r : wf_rr r -> Held r.
Proof.
  intros (H & _ & _). unfold Held.
  assert (P : forall n, proper_name n -> name_try_from n = Some n) by (intros n Hn; apply proper_name_valid in Hn; exact Hn).
  destruct r; cbn [typed_rr] in *; intuition auto.
Qed.
