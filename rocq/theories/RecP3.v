(** Compression pointers in proof streams (C05), concrete counterexamples (C06-C10, C13). *)
From Verif Require Import Base NameM NameSpec WireSpec BitmapSpec BaseP WireM RRM SerM RecSpec NameP WireP BitmapP RecP RecP2.
From Coq Require Import Arith.
Local Open Scope N_scope.

Definition label_lens (ls : list bytes) : Prop := Forall (fun l => (1 <= List.length l <= 191)%nat) ls.

Lemma wire_labels_cons l ls : wire_labels (l :: ls) = len l :: l ++ wire_labels ls.
Proof. reflexivity. Qed.

Lemma pointer_not_plain ls : forall ls' hi t rest, label_lens ls -> label_lens ls' -> 192 <= hi ->
  wire_labels ls ++ hi :: t = wire_name ls' ++ rest -> False.
Proof.
  induction ls as [|l ls IH]; intros ls' hi t rest H H' Hhi E.
  - destruct ls' as [|l' ls']; cbn in E.
    + injection E as E _. lia.
    + inversion H'; subst. injection E as E _. lia.
  - inversion H; subst. destruct ls' as [|l' ls'].
    + cbn in E. injection E as E _. lia.
    + inversion H'; subst. unfold wire_name in E. rewrite !wire_labels_cons in E. cbn in E. injection E as E1 E2.
      rewrite <- !app_assoc in E2. apply app_inv_len in E2 as [_ E2]; auto.
      eapply (IH ls' hi t rest); eauto. unfold wire_name. rewrite <- app_assoc. exact E2.
Qed.

Lemma read_name_pointer ls hi t : label_lens ls -> 192 <= hi ->
  read_wire_packet_name (wire_labels ls ++ hi :: t) [] = Err tt.
Proof.
  intros H Hhi. destruct (read_name_no_crash (wire_labels ls ++ hi :: t) []) as [H1 H2].
  destruct (read_wire_packet_name (wire_labels ls ++ hi :: t) []) as [[n rest]|[]| |] eqn:E; [|reflexivity|congruence|congruence].
  exfalso. apply read_name_in in E as (b & E & Hb). apply NameIn_plain in Hb as (ls' & K1 & -> & _).
  exact (pointer_not_plain ls ls' hi t rest H K1 Hhi E).
Qed.

Lemma stream_app_err dbg s rs inp : StreamEnc NamePlain (negb dbg) s rs -> bytes_ok (s ++ inp) = true ->
  parse_rr_stream dbg inp = Err tt -> parse_rr_stream dbg (s ++ inp) = Err tt.
Proof.
  intros H. revert inp. induction H; intros inp Hb He; [exact He|].
  rewrite <- app_assoc in *. rewrite (parse_stream_cons dbg rec r ttl); auto.
  - rewrite IHStreamEnc; auto. apply bytes_ok_app_inv in Hb. tauto.
  - eapply RecordEnc_ext; [|exact H]. intros b n. apply NameIn_plain.
Qed.

Lemma owner_pointer dbg s rs ls hi t : StreamEnc NamePlain (negb dbg) s rs -> label_lens ls -> 192 <= hi ->
  bytes_ok (s ++ wire_labels ls ++ hi :: t) = true ->
  parse_rr_stream dbg (s ++ wire_labels ls ++ hi :: t) = Err tt.
Proof.
  intros Hs Hl Hhi Hb. eapply stream_app_err; eauto.
  apply parse_stream_err_first.
  - apply bytes_ok_app_inv in Hb. tauto.
  - destruct ls; discriminate.
  - unfold parse_rr, parse_wire_packet_rr. rewrite read_name_pointer by auto. reflexivity.
Qed.

(** RDATA with a compression pointer where a name is expected. *)
Inductive PointerData : N -> bytes -> Prop :=
| PD_name ty ls hi t : In ty [2; 5; 39; 47] -> label_lens ls -> 192 <= hi -> PointerData ty (wire_labels ls ++ hi :: t)
| PD_sig h ls hi t : length_of h = 18 -> label_lens ls -> 192 <= hi -> PointerData 46 (h ++ wire_labels ls ++ hi :: t).

Lemma read_data_pointer dbg ty nm data : PointerData ty data -> read_data dbg ty nm data [] = Err tt.
Proof.
  intros H. destruct H as [ty ls hi t Hty Hl Hhi|h ls hi t Hh Hl Hhi].
  - pose proof (read_name_pointer ls hi t Hl Hhi) as R.
    assert (S1 : read_single_name dbg (wire_labels ls ++ hi :: t) [] = Err tt)
      by (unfold read_single_name; rewrite R; reflexivity).
    cbn in Hty. destruct Hty as [<-|[<-|[<-|[<-|[]]]]]; unfold read_data; cbn [N.eqb Pos.eqb T_A T_AAAA T_NS T_TXT T_CNAME T_DNAME T_TLSA T_DNSKEY T_DS T_RRSIG T_NSEC T_NSEC3].
    + unfold ns_read. rewrite S1. reflexivity.
    + unfold cname_read. rewrite S1. reflexivity.
    + unfold dname_read. rewrite S1. reflexivity.
    + unfold nsec_read. rewrite R. reflexivity.
  - pose proof (read_name_pointer ls hi t Hl Hhi) as R. unfold length_of in Hh.
    do 18 (destruct h as [|? h]; [cbn in Hh; lia|]). destruct h; [|cbn in Hh; lia].
    unfold read_data. cbn [N.eqb Pos.eqb T_A T_AAAA T_NS T_TXT T_CNAME T_DNAME T_TLSA T_DNSKEY T_DS T_RRSIG T_NSEC T_NSEC3].
    unfold rrsig_read. cbn [app read_u16 read_u8 read_u32 obind]. rewrite R. reflexivity.
Qed.

Lemma rdata_pointer dbg s rs nb owner ty ttl data t : StreamEnc NamePlain (negb dbg) s rs ->
  NamePlain nb owner -> PointerData ty data ->
  let inp := s ++ nb ++ u16 ty ++ u16 1 ++ u32 ttl ++ u16 (length_of data) ++ data ++ t in
  bytes_ok inp = true -> parse_rr_stream dbg inp = Err tt.
Proof.
  intros Hs Hn Hp inp Hb. eapply stream_app_err; eauto. unfold inp in *. clear inp.
  apply NameIn_plain in Hn.
  apply parse_stream_err_first.
  - apply bytes_ok_app_inv in Hb. tauto.
  - apply NameIn_nonempty in Hn. destruct nb; [congruence|discriminate].
  - unfold parse_rr, parse_wire_packet_rr. rewrite (read_name_app _ _ _ _ Hn). cbn [obind].
    rewrite read_u16_app. cbn [obind]. rewrite read_u16_app. cbn [obind].
    replace (negb (1 =? 1)) with false by reflexivity. rewrite read_u32_app. cbn [obind].
    rewrite read_u16_app. cbn [obind]. change (length_of data) with (len data).
    replace (len (data ++ t) <? len data) with false by (symmetry; apply N.ltb_ge; rewrite len_app; lia).
    rewrite takeN_app_len, (read_data_pointer dbg ty owner data Hp). reflexivity.
Qed.

(** C13 at the level of one record in a stream. *)
Lemma record_preserved dbg nb owner ty ttl data rest r :
  let rec := nb ++ u16 ty ++ u16 1 ++ u32 ttl ++ u16 (length_of data) ++ data in
  bytes_ok (rec ++ rest) = true -> NamePlain nb owner -> CanonRData ty data ->
  parse_rr dbg (rec ++ rest) = Ok (r, rest) ->
  write_data r = u16 (length_of data) ++ data /\ (CanonName nb owner -> write_rr r ttl = rec).
Proof.
  intros rec Hb Hn Hc H. unfold rec in *. clear rec. unfold parse_rr, parse_wire_packet_rr in H. apply NameIn_plain in Hn as Hn'.
  rewrite <- !app_assoc in H, Hb. rewrite (read_name_app _ _ _ _ Hn') in H. cbn [obind] in H.
  rewrite read_u16_app in H. cbn [obind] in H. rewrite read_u16_app in H. cbn [obind] in H.
  replace (negb (1 =? 1)) with false in H by reflexivity. rewrite read_u32_app in H. cbn [obind] in H.
  rewrite read_u16_app in H. cbn [obind] in H. change (length_of data) with (len data) in *.
  replace (len (data ++ rest) <? len data) with false in H by (symmetry; apply N.ltb_ge; rewrite len_app; lia).
  rewrite takeN_app_len, dropN_app_len in H.
  apply bytes_ok_app_inv in Hb as [_ Hb]. apply bytes_ok_app_inv in Hb as [B1 Hb]. apply bytes_ok_app_inv in Hb as [_ Hb].
  apply bytes_ok_app_inv in Hb as [B2 Hb]. apply bytes_ok_app_inv in Hb as [B3 Hb]. apply bytes_ok_app_inv in Hb as [B4 _].
  destruct (read_data dbg ty owner data []) as [r'| | |] eqn:E; try discriminate. cbn in H. injection H as ->.
  apply read_data_sound in E; auto.
  apply RData_ext with (Nm' := NamePlain) in E; [|intros b n; apply NameIn_plain].
  assert (HL : len data <= 65535).
  { unfold u16 in B3. cbn in B3. unfold byte_ok in B3. rewrite !andb_true_iff, !N.ltb_lt in B3.
    pose proof (N.div_mod (len data) 256). pose proof (N.mod_lt (len data) 256). lia. }
  pose proof (canon_preserved _ _ _ _ _ E Hc HL B4) as Hw. split; auto. intros Hcn.
  apply RData_owner in E as [E1 E2]. unfold write_rr. rewrite Hw, E1, E2.
  destruct (Canon_write _ _ Hcn) as [-> _].
  rewrite be16_u16, be32_u32.
  - reflexivity.
  - unfold u32 in B2. cbn [bytes_ok forallb] in B2. unfold byte_ok in B2. rewrite !andb_true_iff, !N.ltb_lt in B2.
    pose proof (N.div_mod ttl 16777216). pose proof (N.mod_lt ttl 16777216). lia.
  - unfold u16 in B1. cbn in B1. unfold byte_ok in B1. rewrite !andb_true_iff, !N.ltb_lt in B1.
    pose proof (N.div_mod ty 256). pose proof (N.mod_lt ty 256). lia.
Qed.
