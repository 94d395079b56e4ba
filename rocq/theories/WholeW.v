(** Witness for Prop_Whole: the wildcard answer of OrderW on the wire, with owners and next names in mixed case. *)
From Verif Require Import Base BaseP NameM WireM RRM SerM ValM NameSpec WireSpec BitmapSpec CodecSpec RecSpec RecP2 ValSpec ValP ValP2 ValW OrderW SignedP AcceptSpec AcceptP4 AcceptW CanonSpec CanonP CanonW WholeSpec WholeP.
From Coq Require Import String Permutation.
Local Open Scope N_scope.

Definition h_owners : list (list bytes) :=
  [[]; []; [[65]]; [[65]]; [[97]]; [[65]]; [[88]; [97]]; [[120]; [65]]; [[67]; [65]]; [[99]; [97]]].
Definition h_rr (p : list bytes * RR) : wire_rr := {| wr_owner := fst p; wr_type := rr_ty (snd p); wr_ttl := 60; wr_data := skipn 2 (write_data (snd p)) |}.
Definition h_wire : list wire_rr := map h_rr (combine h_owners o_wild).
Definition h_octets : bytes := List.concat (map wr_octets h_wire).

Lemma h_parse : parse_rr_stream true h_octets = Ok o_wild.
Proof. vm_compute. reflexivity. Qed.
Lemma h_sig_data d signer : proper signer -> length_of (firstn 18 d) = 18 -> bytes_eqb d (firstn 18 d ++ wire_name signer ++ skipn (18 + List.length (wire_name signer)) d) = true -> SigData d.
Proof. intros P L E. apply bytes_eqb_eq in E. exists (firstn 18 d), signer, (skipn (18 + List.length (wire_name signer)) d). auto. Qed.
Ltac h_head := split; [bytes_in_range |]; split; [cbn [h_rr wr_owner fst]; c_proper |].
Ltac h_sig ls := h_head; right; split; [reflexivity |]; apply (h_sig_data _ ls); [c_proper | vm_compute; reflexivity | vm_compute; reflexivity].
Lemma h_legal : Forall LegalRecord h_wire.
Proof.
  unfold h_wire, h_owners, o_wild, o_zones. cbn [app combine map].
  apply Forall_cons. { h_head. left. eexists. apply CF_dnskey. vm_compute. discriminate. }
  apply Forall_cons. { h_sig (@nil bytes). }
  apply Forall_cons. { h_head. left. eexists. apply CF_ds. vm_compute. discriminate. }
  apply Forall_cons. { h_sig (@nil bytes). }
  apply Forall_cons. { h_head. left. eexists. apply CF_dnskey. vm_compute. discriminate. }
  apply Forall_cons. { h_sig [[97]]. }
  apply Forall_cons. { h_head. left. eexists. apply CF_a. vm_compute. reflexivity. }
  apply Forall_cons. { h_sig [[97]]. }
  apply Forall_cons. { h_head. left. exists c_low. assert (E : wr_data (h_rr ([[67]; [65]], o_nsec)) = c_low) by (vm_compute; reflexivity). rewrite E.
    apply CF_nsec; [c_proper | exact c_bits_canon]. }
  apply Forall_cons. { h_sig [[97]]. }
  apply Forall_nil.
Qed.
Lemma h_reads : Forall2 Reads h_wire o_wild.
Proof.
  destruct (whole_reads h_wire h_legal) as (inp & R). pose proof (reads_parse true h_wire inp h_legal R) as P. change (List.concat (map wr_octets h_wire)) with h_octets in P.
  rewrite h_parse in P. injection P as <-. exact R.
Qed.
Lemma h_tidy : Tidy h_wire o_wild.
Proof.
  split; [| split].
  - unfold h_wire, h_owners, o_wild, o_zones. cbn [app combine map]. repeat (apply Forall_cons; [intros X; discriminate X |]). apply Forall_nil.
  - unfold h_wire, h_owners, o_wild, o_zones. cbn [app combine map]. do 8 (apply Forall_cons; [intros X; discriminate X |]).
    apply Forall_cons; [| apply Forall_cons; [intros X; discriminate X | apply Forall_nil]]. intros _. exists [[122]; [97]], c_bits. split; [c_proper |]. split; [reflexivity |]. split; [exact c_bits_canon | vm_compute; reflexivity].
  - intros s H. unfold o_wild, o_zones in H. cbn [app In] in H.
    assert (K : forall n ty w, set_of h_wire n ty = [w] -> (wr_type w = 47 -> OwnerForm (rs_labels s) (wr_owner w) (wire_name (map lower (wr_owner w)))) ->
      Forall (NsecOwner s) (set_of h_wire n ty) /\ Orderly (set_of h_wire n ty)).
    { intros n ty w -> O. split; [apply Forall_cons; [exact O | apply Forall_nil] | left; cbn; lia]. }
    repeat match goal with H : _ \/ _ |- _ => destruct H as [H | H] end; try discriminate; try contradiction; injection H as <-;
      (split; [discriminate |]; split; [discriminate |]); eapply K; try (vm_compute; reflexivity); intros X; try discriminate X.
    left. split; reflexivity.
Qed.
Lemma h_accepted : WTwoParams echo_env h_wire o_wild /\ WOneZone echo_env h_wire o_wild /\ WAcceptable echo_env h_wire o_wild /\ WDenials echo_env h_wire o_wild.
Proof.
  assert (T : WTwoParams echo_env h_wire o_wild) by (apply (two_same echo_env _ _ h_legal h_reads h_tidy); exact o_wild_two).
  assert (O : WOneZone echo_env h_wire o_wild) by (apply (one_same echo_env _ _ h_legal h_reads h_tidy); apply o_wild_one).
  split; [exact T |]. split; [exact O |]. apply (whole_exact false echo_env h_wire o_wild h_legal h_reads h_tidy echo_sorts T O). exists 10%nat. eexists. vm_compute. reflexivity.
Qed.
Lemma h_ok : exists v, echo o_wild = Ok v /\ vr_rrs v = [w_a "x.a."].
Proof. eexists. split; vm_compute; reflexivity. Qed.

(** A TXT record of the root zone whose two strings were joined after it was signed as one. *)
Definition j_txt : RR := RR_Txt {| tx_name := bs "x."; tx_data := [65; 66] |}.
Definition j_sig : rrsig := o_rrsig "x." 16 1 "." [j_txt].
Definition j_inp : list RR := o_zones ++ [j_txt; RR_RRSig j_sig].
Definition j_rr : wire_rr := {| wr_owner := [[120]]; wr_type := 16; wr_ttl := 60; wr_data := c_txt |}.
Definition j_wire : list wire_rr := map h_rr (combine h_owners o_zones) ++ [j_rr; h_rr ([[120]], RR_RRSig j_sig)].
Lemma j_parse : parse_rr_stream true (List.concat (map wr_octets j_wire)) = Ok j_inp.
Proof. vm_compute. reflexivity. Qed.
Lemma j_legal : Forall LegalRecord j_wire.
Proof.
  unfold j_wire. apply Forall_app. split.
  - unfold h_owners, o_zones. cbn [app combine map].
    apply Forall_cons. { h_head. left. eexists. apply CF_dnskey. vm_compute. discriminate. }
    apply Forall_cons. { h_sig (@nil bytes). }
    apply Forall_cons. { h_head. left. eexists. apply CF_ds. vm_compute. discriminate. }
    apply Forall_cons. { h_sig (@nil bytes). }
    apply Forall_cons. { h_head. left. eexists. apply CF_dnskey. vm_compute. discriminate. }
    apply Forall_cons. { h_sig [[97]]. }
    apply Forall_nil.
  - apply Forall_cons. { split; [bytes_in_range |]. split; [cbn [j_rr wr_owner]; c_proper |]. left. exists c_txt. exact c_txt_canon. }
    apply Forall_cons. { h_sig (@nil bytes). }
    apply Forall_nil.
Qed.
Lemma j_reads : Forall2 Reads j_wire j_inp.
Proof.
  destruct (whole_reads j_wire j_legal) as (inp & R). pose proof (reads_parse true j_wire inp j_legal R) as P. rewrite j_parse in P. injection P as <-. exact R.
Qed.
Lemma j_set : set_of j_wire (rs_name j_sig) (rs_ty j_sig) = [j_rr].
Proof. vm_compute. reflexivity. Qed.
Lemma j_unsigned : ~ ToSign j_wire j_sig (rs_signature j_sig).
Proof.
  intros (ord & P & _ & signer & pieces & CN & F & E). rewrite j_set in P. apply Permutation_length_1_inv in P. subst ord.
  inversion F as [| w b ws bs0 CF F0]; subst. inversion F0; subst. destruct CF as (o & d & O & D & EB).
  pose proof (canonical_fun _ _ _ _ D c_txt_canon) as ED. subst d. subst b.
  assert (ES : signer = wire_name []).
  { eapply canon_name_unique; [exact CN |]. exists []. split; [split; [apply Forall_nil | cbn; lia] |]. split; [reflexivity | split; reflexivity]. }
  subst signer.
  assert (EO : o = wire_name [[120]]).
  { destruct O as [[_ ->] | (pre & suf & X & NE & L & _)]; [reflexivity |]. exfalso. cbn [j_rr wr_owner] in X. destruct pre as [| p pre]; [congruence |]. injection X as _ X.
    destruct pre; [| discriminate X]. cbn [app] in X. subst suf. vm_compute in L. discriminate. }
  subst o. apply (f_equal (@List.length N)) in E. vm_compute in E. discriminate.
Qed.
Lemma j_rejected : ~ WAcceptable echo_env j_wire j_inp.
Proof.
  intros A. assert (Z : ZoneSig j_inp [46] j_sig).
  { split; [unfold j_inp; apply in_or_app; right; right; left; reflexivity |]. split; [reflexivity | discriminate]. }
  destruct (wa_sigs _ _ _ A [46] j_sig (WV_root _ _ _) Z) as [_ [(_ & U & _) | [(_ & k & m & _ & T & C) _]]].
  - apply U. left. reflexivity.
  - assert (E : m = rs_signature j_sig). { inversion C as [md ex _ _ _ _ S | md ex X | X | X | X]; try discriminate X. cbn [echo_env e_sig] in S. apply bytes_eqb_eq in S. exact S. }
    subst m. exact (j_unsigned T).
Qed.
Lemma j_two : WTwoParams echo_env j_wire j_inp.
Proof.
  intros z nc ty _. exists (0, []), (0, []). intros n pre (z' & s & _ & _ & _ & Hn & _). exfalso.
  assert (X : forallb (fun r => match r with RR_NSec3 _ => false | _ => true end) j_inp = true) by (vm_compute; reflexivity). rewrite forallb_forall in X. apply X in Hn. discriminate.
Qed.
Lemma j_one : WOneZone echo_env j_wire j_inp.
Proof.
  intros z z' nc ty ty' (s & pre & l & suf & _ & ((I & _ & N48) & _) & N43 & N47 & _ & LO & L & _) _. exfalso.
  assert (E : s = j_sig).
  { unfold j_inp, o_zones in I. cbn [app In] in I. repeat match goal with H : _ \/ _ |- _ => destruct H as [H | H] end; try discriminate; try contradiction; injection I as <-;
      try (exfalso; apply N43; reflexivity); try (exfalso; apply N48; reflexivity). reflexivity. }
  subst s. assert (LO' : LabelsOf (rs_name j_sig) [[120]]) by (apply (proper_labels [[120]]); c_proper).
  pose proof (labelsof_inj _ _ _ LO LO') as X. apply (f_equal (@List.length _)) in X. rewrite app_length in X. cbn [List.length] in X. change (rs_labels j_sig) with 1 in L. lia.
Qed.
Lemma strings_refuted : ~ (forall e ws inp, Forall LegalRecord ws -> Forall2 Reads ws inp -> SortsNeeds e -> WTwoParams e ws inp -> WOneZone e ws inp ->
  ((exists fuel v, verify_rr_stream e false fuel inp = Ok v) <-> WAcceptable e ws inp /\ WDenials e ws inp)).
Proof.
  intros H. apply j_rejected. apply (H echo_env j_wire j_inp j_legal j_reads echo_sorts j_two j_one). exists 10%nat. eexists. vm_compute. reflexivity.
Qed.
