(** What the validator asks about is signed on the wire as a set which can be read as text. *)
From Verif Require Import Base BaseP NameM WireM RRM SerM ValM NameSpec NameP WireSpec WireP RecSpec RecP RecP2 BitmapSpec BitmapP CodecSpec QueryP ValSpec ValP ValP2 ValP3 SignedP HeldP SecSpec SecP SecP2 SecP3 PubSpec NextSpec NextP.
From Coq Require Import Permutation.
Local Open Scope N_scope.

(** ** Names *)
Lemma wl_short L ty X Y : Forall label_ok L -> 1 <= ty -> L <> [] -> wire_labels L ++ 0 :: ty :: 0 :: X = 0 :: ty :: 0 :: Y -> False.
Proof.
  destruct L as [| m [| m' M]]; intros HM Ht N E; [congruence | |]; rewrite wl_cons in E; cbn [app] in E.
  - destruct m; [| discriminate]. cbn [app wire_labels flat_map] in E. injection E as E _. lia.
  - destruct m; [| discriminate]. cbn [app length] in E. rewrite wl_cons in E. cbn [app] in E. injection E as E1 E2.
    inversion HM as [| ? ? _ HM']; subst. inversion HM' as [| ? ? [_ Hm] _]; subst. destruct m' as [| c m']; [cbn in Ht; lia |].
    cbn [app] in E2. injection E2 as -> _. inversion Hm as [| ? ? [Hc _] _]. lia.
Qed.
(** The labels on the left are those of a text; on the right there may be any octets. *)
Lemma wl_any L : forall M ty X Y, Forall label_ok L -> 1 <= ty -> wire_labels L ++ 0 :: ty :: 0 :: X = wire_labels M ++ 0 :: ty :: 0 :: Y ->
  (L = M /\ X = Y) \/ exists R, M = L ++ [] :: R.
Proof.
  induction L as [| l L IH]; intros M ty X Y HL Ht E.
  - destruct M as [| m M]; [cbn [wire_labels flat_map app] in E; injection E as ->; auto |]. destruct m as [| c m]; [right; exists M; reflexivity |].
    rewrite wl_cons in E. cbn [wire_labels flat_map app length] in E. exfalso. injection E as E _. lia.
  - destruct M as [| m M]; [exfalso; eapply (wl_short (l :: L)); [exact HL | exact Ht | discriminate | exact E] |].
    rewrite !wl_cons in E. cbn [app] in E. injection E as E1 E2. rewrite <- !app_assoc in E2. apply app_inv_len in E2; [| unfold len; exact E1].
    destruct E2 as [-> E2]. inversion HL; subst. destruct (IH M ty X Y) as [[-> ->] | (R & ->)]; auto. right. exists R. reflexivity.
Qed.
Definition empties (ls : list (list N)) : nat := count_occ (list_eq_dec N.eq_dec) ls [].
Lemma empties_app a b : empties (a ++ b) = (empties a + empties b)%nat.
Proof. apply count_occ_app. Qed.
Lemma empties_none ls : Forall (fun l => l <> []) ls -> empties ls = 0%nat.
Proof. intros H. apply count_occ_not_In. intros I. rewrite Forall_forall in H. apply (H [] I). reflexivity. Qed.
Lemma wl_same L M ty X Y : Forall label_ok L -> 1 <= ty -> (empties M <= empties L)%nat -> wire_labels L ++ 0 :: ty :: 0 :: X = wire_labels M ++ 0 :: ty :: 0 :: Y -> L = M /\ X = Y.
Proof.
  intros HL Ht HE E. destruct (wl_any L M ty X Y HL Ht E) as [H | (R & ->)]; [exact H |]. exfalso. rewrite empties_app in HE. unfold empties at 2 in HE. cbn in HE. lia.
Qed.

Lemma dots_wire ls : length (wire_labels ls) = length (dots ls).
Proof.
  induction ls as [| l ls IH]; [reflexivity |]. rewrite wl_cons. unfold dots in *. cbn [map concat]. cbn [length]. rewrite !app_length, IH. cbn [length]. lia.
Qed.
Lemma dotted_wire ls : (length (wire_name ls) <= 255)%nat -> (length (dotted ls) <= 255)%nat.
Proof. unfold wire_name. rewrite app_length, dots_wire. destruct ls; [cbn; lia |]. cbn [dotted length]. lia. Qed.
Lemma lower_empty l : lower l = [] -> l = [].
Proof. destruct l; [reflexivity | discriminate]. Qed.
Lemma legal_nonempty ls : LegalName ls -> Forall (fun l => l <> []) (map lower ls).
Proof. intros [H _]. apply Forall_map. eapply Forall_impl; [| exact H]. cbn. intros l [N _] E. apply N, lower_empty, E. Qed.
Lemma wire_lower ls : length (wire_name (map lower ls)) = length (wire_name ls).
Proof.
  unfold wire_name. rewrite !app_length. f_equal. induction ls as [| l ls IH]; [reflexivity |]. cbn [map]. rewrite !wl_cons. cbn [length]. rewrite !app_length, IH, lower_length. reflexivity.
Qed.
Lemma map_lower_idem ls : map lower (map lower ls) = map lower ls.
Proof. rewrite map_map. apply map_ext. intros l. apply lower_idem. Qed.
Lemma lower_dotted_map ls : lower (dotted (map lower ls)) = dotted (map lower ls).
Proof. destruct ls as [| l ls]; [reflexivity |]. change (dotted (map lower (l :: ls))) with (dots (map lower (l :: ls))). rewrite lower_dots, map_lower_idem. reflexivity. Qed.
(** A legal name of the characters allowed. *)
Lemma legal_proper ls : LegalName ls -> Forall label_ok (map lower ls) -> proper (map lower ls).
Proof.
  intros H HO. split; [| apply dotted_wire; rewrite wire_lower; apply H]. apply legal_nonempty in H. rewrite Forall_forall in H, HO |- *. auto.
Qed.
Lemma legal_canon ls : LegalName ls -> Forall label_ok (map lower ls) -> CanonName (wire_name (map lower ls)) (dotted (map lower ls)).
Proof. intros H HO. exists (map lower ls). split; [apply legal_proper; assumption |]. split; [reflexivity |]. split; [reflexivity | apply lower_dotted_map]. Qed.
Lemma canon_valid b n : CanonName b n -> valid_name n.
Proof. intros (ls & P & _ & -> & L). apply proper_name_valid. exists ls. auto. Qed.

(** ** RDATA *)
Lemma name_data_read t d X Y : valid_name t -> length_of d <= 65535 -> (exists ls, LegalName ls /\ d = wire_name ls) ->
  name_write t ++ X = u16 (length_of d) ++ d ++ Y -> CanonName d t /\ X = Y.
Proof.
  intros V HB (ms & LG & ->) E. unfold name_write in E. rewrite <- app_assoc in E. destruct (held_name_len _ V) as [NL1 NL2]. rewrite be16_u16 in E by (rewrite NL1; lia).
  destruct (valid_labels _ V) as (ls & L1 & _). assert (W := labels_wire _ _ L1 (valid_lower _ V)).
  assert (LEN : name_len t = length_of (write_name t)).
  { rewrite W. destruct L1 as (-> & A & B). destruct ls as [| l ls]; [reflexivity |]. change (dotted (l :: ls)) with (dots (l :: ls)) in *. rewrite name_len_wire_gen; [reflexivity | | exact A | exact B | discriminate]. apply name_try_from_spec in V as [(ns & _ & _ & _ & V) _]. exact V. }
  apply u16_app_inv in E as [E1 E]. apply app_inv_len in E; [| unfold length_of in *; unfold len; congruence]. destruct E as [E ->]. split; [| reflexivity].
  rewrite W, !wire_name_labels in E. apply wl_whole, app_inj_tail in E as [-> _]. exists ms. destruct L1 as (LA & LB & _). split; [| split; [reflexivity | split; [exact LA | apply valid_lower; exact V]]].
  split; [| apply dotted_wire; apply LG]. destruct LG as [LG _]. rewrite Forall_forall in LG, LB |- *. intros l Hl. split; [apply LG; exact Hl | auto].
Qed.
(** The octets can be read in one way only. *)
Definition Readable (r : RR) (d : list N) : Prop := clear r \/ (rr_ty r = 47 /\ OrdinaryNsec d).
Lemma readable_clear r d X Y : Held r -> Readable r d -> length_of d <= 65535 -> write_data r ++ X = u16 (length_of d) ++ d ++ Y -> clear r.
Proof.
  intros H [U | [T O]] L E; [exact U |]. split; [rewrite T; discriminate |]. destruct r; try exact I. exact (ordinary_next _ _ _ _ H O L E).
Qed.
Lemma data_read r o d X Y : Held r -> fits_rr r -> Readable r d -> LegalData (rr_ty r) d ->
  write_data r ++ X = u16 (length_of d) ++ d ++ Y -> RData CanonName false (rr_ty r) o (rename o r) d /\ X = Y.
Proof.
  intros HH HF U0 (HL & HN & HT) E. pose proof (readable_clear r d X Y HH U0 HL E) as U.
  assert (PL : wf_rr (rename [46] r) -> RData CanonName false (rr_ty r) o (rename o r) d /\ X = Y).
  { intros W. destruct (write_data_canon _ W) as (d' & W1 & W2 & _ & W4 & _). rewrite rename_data in W1. rewrite W1, <- app_assoc in E.
    change (len d') with (length_of d') in E. apply u16_app_inv in E as [E1 E]. apply app_inv_len in E; [| exact E1]. destruct E as [-> ->]. split; [| reflexivity].
    rewrite rename_ty in W4. assert (NR : rr_name (rename [46] r) = [46]) by (destruct r; reflexivity). rewrite NR in W4.
    apply (rdata_rename _ _ _ _ o) in W4. rewrite rename_rename in W4. exact W4. }
  unfold Held in HH. destruct r as [r|r|r|r|r|r|r|r|r|r|r|r]; cbn [typed_rr fits_rr rr_ty] in *;
    try (apply PL; split; [cbn [rename typed_rr]; split; [exact root_proper | apply HH] | split; [exact HF | exact I]]);
    try (exfalso; apply (proj1 U); reflexivity).
  - cbn [write_data] in E. apply (name_data_read _ _ _ _ (proj2 HH) HL) in E as [C ->]; [| apply HN; cbn; tauto]. split; [| reflexivity].
    cbn [rename]. rewrite <- (app_nil_r d). apply RD_NS; auto.
  - assert (TD : tx_data r = [] \/ tx_data r <> []) by (destruct (tx_data r); [left; reflexivity | right; discriminate]). destruct TD as [ED | ED].
    + exfalso. cbn [write_data] in E. unfold txt_write in E. rewrite ED in E. cbn in E. destruct d; [apply HT; reflexivity |].
      assert (L0 : 0 < length_of (n :: d)) by (unfold length_of; cbn [length]; lia). unfold u16 in E. cbn [app] in E. injection E as E1 E2 _.
      rewrite (N.div_mod (length_of (n :: d)) 256), <- E1, <- E2 in L0 by lia. cbn in L0. lia.
    + apply PL. split; [cbn [rename typed_rr]; split; [exact root_proper | apply HH] | split; [exact HF |]]. exact ED.
  - cbn [write_data] in E. apply (name_data_read _ _ _ _ (proj2 HH) HL) in E as [C ->]; [| apply HN; cbn; tauto]. split; [| reflexivity].
    cbn [rename]. rewrite <- (app_nil_r d). apply RD_CName; auto.
  - cbn [write_data] in E. apply (name_data_read _ _ _ _ (proj2 HH) HL) in E as [C ->]; [| apply HN; cbn; tauto]. split; [| reflexivity].
    cbn [rename]. rewrite <- (app_nil_r d). apply RD_DName; auto.
  - apply PL. split; [cbn [rename typed_rr]; split; [exact root_proper | split; [apply U | apply HH]] | split; [exact HF | exact I]].
Qed.

(** ** Records *)
Definition pub_piece (p : pub) (d : list N) : list N := owner_octets p ++ u16 (pb_type p) ++ u16 1 ++ u32 (pb_ttl p) ++ u16 (length_of d) ++ d.
Lemma piece_read s p r P Q b d X Y : Forall label_ok P -> (empties Q <= empties P)%nat -> Held r -> fits_rr r -> Readable r d -> rr_ty r = pb_type p ->
  rs_orig_ttl s = pb_ttl p -> LegalName (pb_owner p) -> LegalData (pb_type p) d -> SignedRR s r b -> wire_labels P ++ b ++ X = wire_labels Q ++ pub_piece p d ++ Y ->
  exists L, Forall label_ok L /\ P ++ L = Q ++ map lower (pb_owner p) /\ (forall o, RData CanonName false (rr_ty r) o (rename o r) d) /\ X = Y.
Proof.
  intros HP HE HH HF U HT HTT LO LD (ow & O & ->) E. unfold pub_piece, owner_octets in E. rewrite <- HT, <- HTT in E. rewrite <- HT in LD.
  assert (V : valid_name (rr_name r)) by (destruct r; apply HH).
  destruct (owner_labels _ _ _ V O) as (L & L1 & -> & _). exists L. split; [exact L1 |]. destruct (ty_range r) as (T1 & T2 & T3).
  rewrite !wire_name_labels, <- !app_assoc in E. rewrite !(app_assoc (wire_labels _) (wire_labels _)), <- !wire_labels_app in E. unfold u16 at 1 3 in E. rewrite T1, T2 in E. cbn [app] in E.
  unfold u16 at 1 3 in E. cbn [app] in E. change (1 / 256) with 0 in E. change (1 mod 256) with 1 in E.
  apply wl_same in E; [| | exact T3 |].
  - destruct E as [E1 E2]. rewrite !app_assoc in E1. apply app_inj_tail in E1 as [E1 _]. split; [exact E1 |]. injection E2 as E2.
    split; [intros o; exact (proj1 (data_read r o d X Y HH HF U LD E2)) | exact (proj2 (data_read r [] d X Y HH HF U LD E2))].
  - apply Forall_app. split; [exact HP |]. apply Forall_app. split; [exact L1 |]. constructor; [split; [cbn; lia | constructor] | constructor].
  - rewrite !empties_app, (empties_none (map lower _)) by (apply legal_nonempty; exact LO). lia.
Qed.
Lemma pieces_read s p n rs : forall ps ds, Forall (fun r => Held r /\ fits_rr r /\ rr_name r = n /\ rr_ty r = rs_ty s) rs -> (forall r d, In r rs -> In d ds -> Readable r d) -> rs_ty s = pb_type p ->
  rs_orig_ttl s = pb_ttl p -> LegalName (pb_owner p) -> Forall (LegalData (pb_type p)) ds -> Forall2 (SignedRR s) rs ps -> concat ps = flat_map (pub_piece p) ds ->
  forall o, Forall2 (RData CanonName false (pb_type p) o) (map (rename o) rs) ds.
Proof.
  assert (NZ : forall r b, SignedRR s r b -> b <> []).
  { intros r b (ow & _ & ->) E. apply app_eq_nil in E as [_ E]. discriminate. }
  assert (NZ0 : forall d, pub_piece p d <> []).
  { intros d E. apply app_eq_nil in E as [_ E]. discriminate. }
  induction rs as [| r rs IH]; intros ps ds H1 HU HT HO LO LD F E o.
  - inversion F; subst. destruct ds as [| d ds]; [constructor |]. exfalso. cbn [concat flat_map] in E. symmetry in E. apply app_eq_nil in E as [E _]. eapply NZ0; eauto.
  - inversion F as [| ? b ? ps' B F']; subst. destruct ds as [| d ds].
    + exfalso. cbn [concat flat_map] in E. apply app_eq_nil in E as [E _]. eapply NZ; eauto.
    + inversion H1 as [| ? ? (A1 & A2 & A4 & A5) ?]; inversion LD; subst. cbn [concat flat_map] in E.
      destruct (piece_read s p r [] [] b d (concat ps') (flat_map (pub_piece p) ds)) as (L & _ & _ & R & X); auto; [apply HU; left; reflexivity | congruence |].
      cbn [map]. constructor; [rewrite <- HT, <- A5; apply R | eapply IH; eauto]. intros r' d' I1 I2. apply HU; right; assumption.
Qed.

(** ** The whole message *)
Lemma readable_text s n rs msg p : Held (RR_RRSig s) -> rs <> [] -> SignedData s rs msg -> Forall (fun r => Held r /\ fits_rr r /\ rr_name r = n /\ rr_ty r = rs_ty s) rs ->
  (rs_ty s = pb_type p -> forall r d, In r rs -> In d (pb_data p) -> Readable r d) -> LegalPub p -> msg = pub_octets p -> exists s0 o, TextForm p s0 (map (rename o) rs).
Proof.
  intros HS NE (ps & F & EM) HR HU (LO & LS & DN & LD & _) ->. unfold rrsig_rdata, pub_octets in EM. symmetry in EM. rename EM into E.
  fold (pub_piece p) in E. rewrite <- !app_assoc in E. cbn [app] in E. rewrite <- ?app_assoc in E.
  apply u16_app_inv in E as [ET E]. apply cons_inv in E as [EA E]. apply cons_inv in E as [EL E]. apply u32_app_inv in E as [EO E]. apply u32_app_inv in E as [EX E]. apply u32_app_inv in E as [EI E]. apply u16_app_inv in E as [EK E].
  pose proof F as F0. pose proof HR as HR0. destruct rs as [| r rs]; [congruence |]. destruct (pb_data p) as [| d ds] eqn:ED; [congruence |]. inversion F as [| ? b ? ps' B F']; subst.
  assert (VK : valid_name (rs_key_name s)) by apply HS. destruct (valid_labels _ VK) as (ks & K1 & _). rewrite (labels_wire _ _ K1 (valid_lower _ VK)) in E.
  unfold signer_octets in E. pose proof E as E0. rewrite !wire_name_labels in E. cbn [concat flat_map] in E.
  inversion HR as [| ? ? (A1 & A2 & A4 & A5) HR']; inversion LD; subst. specialize (HU ET).
  destruct (piece_read s p r (ks ++ [[]]) (map lower (pb_signer p) ++ [[]]) b d (concat ps') (flat_map (pub_piece p) ds)) as (L & L1 & E1 & _); auto.
  - apply Forall_app. split; [apply K1 |]. constructor; [split; [cbn; lia | constructor] | constructor].
  - rewrite !empties_app, (empties_none (map lower _)) by (apply legal_nonempty; exact LS). lia.
  - apply HU; left; reflexivity.
  - congruence.
  - apply two_names in E1 as [EK1 EK2]; [| apply legal_nonempty; exact LS | apply legal_nonempty; exact LO]. subst ks L.
    assert (C1 := legal_canon _ LO L1). assert (C2 := legal_canon _ LS ltac:(apply K1)).
    eexists {| rs_name := dotted (map lower (pb_owner p)); rs_ty := rs_ty s; rs_alg := rs_alg s; rs_labels := rs_labels s; rs_orig_ttl := rs_orig_ttl s; rs_expiration := rs_expiration s;
      rs_inception := rs_inception s; rs_key_tag := rs_key_tag s; rs_key_name := rs_key_name s; rs_signature := rs_signature s |}, (dotted (map lower (pb_owner p))).
    split; [exact C1 |]. split; [cbn [rs_key_name]; rewrite (proj1 K1); exact C2 |].
    split; [unfold Held in *; cbn [typed_rr rs_name rs_ty rs_alg rs_labels rs_orig_ttl rs_expiration rs_inception rs_key_tag rs_key_name rs_signature] in *; split; [exact (canon_valid _ _ C1) | apply HS] |].
    cbn [rs_name rs_ty rs_alg rs_labels rs_orig_ttl rs_expiration rs_inception rs_key_tag]. do 7 (split; [congruence |]).
    rewrite ED. eapply (pieces_read s p); eauto. apply app_inv_head in E0. exact E0.
Qed.
Lemma asked_text msg p : Asked msg -> LegalPub p -> msg = pub_octets p -> exists s rs, TextForm p s rs.
Proof.
  intros (s & n & rs & HS & NE & SD & HR) LP E. destruct (readable_text s n rs msg p HS NE SD) as (s0 & o & T); eauto.
  - eapply Forall_impl; [| exact HR]. cbn. tauto.
  - intros _ r d I _. left. rewrite Forall_forall in HR. apply HR. exact I.
Qed.
(** NSEC records with ordinary types have the next name which was signed. *)
Lemma nsec_text s n rs msg p : Held (RR_RRSig s) -> rs <> [] -> rs_ty s = 47 -> SignedData s rs msg -> Forall (fun r => Held r /\ fits_rr r /\ rr_name r = n /\ rr_ty r = rs_ty s) rs ->
  LegalPub p -> (pb_type p = 47 -> Forall OrdinaryNsec (pb_data p)) -> msg = pub_octets p -> Forall clear rs.
Proof.
  intros HS NE T SD HR LP HO E. destruct (readable_text s n rs msg p HS NE SD HR) as (s0 & o & TF); auto.
  - intros TP r d I1 I2. right. rewrite Forall_forall in HR. split; [rewrite <- T; apply HR; exact I1 |]. assert (Q : pb_type p = 47) by congruence. apply HO in Q. rewrite Forall_forall in Q. auto.
  - destruct TF as (_ & _ & _ & _ & _ & _ & _ & _ & _ & _ & F). rewrite T in HR. clear - F HR. revert F. generalize (pb_data p). induction rs as [| r rs IH]; intros ds F; [constructor |].
    inversion HR as [| ? ? (_ & _ & _ & RT) HR']; subst. inversion F as [| ? d ? ds' R F']; subst. constructor; [| eapply IH; eauto].
    split; [rewrite RT; discriminate |]. destruct r; try exact I. cbn [rename] in R. inversion R as [| | | | | | | | | |o' b n' bits mask C BE|]; subst. destruct C as (ls & C1 & _ & C2 & C3). exists ls. auto.
Qed.
Lemma text_pubdata p s rs : LegalPub p -> TextForm p s rs -> PubData s rs (pub_octets p).
Proof.
  intros (_ & _ & _ & LD & _) (C1 & C2 & _ & T & A & LB & O & X & I & K & F). exists (signer_octets p), (map (pub_piece p) (pb_data p)). split; [exact C2 |]. split.
  - rewrite <- (map_id rs). rewrite <- (map_id (pb_data p)) in F. clear - F LD C1 T O.
    rewrite map_id in *. induction F as [| r d rs ds R F IH]; [constructor |]. inversion LD as [| ? ? (L1 & L2 & L3) LD']; subst. cbn [map]. constructor; [| auto].
    destruct (rdata_owner _ _ _ _ R) as (_ & RT & RN). exists (owner_octets p), d. rewrite RT, RN. split; [exact C1 |]. split; [exact R |]. split; [exact L3 |]. split; [exact L1 |]. rewrite O. reflexivity.
  - unfold pub_octets. fold (pub_piece p). rewrite T, A, LB, O, X, I, K, <- flat_map_concat_map. reflexivity.
Qed.

(** ** The world *)
Lemma lower_star l : lower l = [42] -> l = [42].
Proof.
  destruct l as [| c [| d l]]; try discriminate. cbn. unfold to_lower. intros E. injection E as E. f_equal.
  destruct ((65 <=? c) && (c <=? 90))%bool eqn:G; [| exact E]. apply andb_true_iff in G as [G1 G2]. apply N.leb_le in G1, G2. lia.
Qed.
Lemma star_lower ls : length (star_tail (map lower ls)) = length (star_tail ls).
Proof.
  destruct (star_cases ls) as [(t & -> & ->) | (N1 & ->)]; [apply map_length |].
  destruct (star_cases (map lower ls)) as [(t & E & _) | (_ & ->)]; [| apply map_length]. exfalso. destruct ls as [| l ls]; [discriminate |]. cbn [map] in E. injection E as E _.
  apply lower_star in E. subst l. apply N1. eauto.
Qed.
Lemma world_of e KeyOf Honest Signs : WireWorld e KeyOf Honest Signs -> World e KeyOf Honest (text_signed Signs).
Proof.
  intros W. constructor.
  - intros z k s msg HZ HK HC HA. destruct (ww_unforged _ _ _ _ W z k s msg HZ HK HC) as (p & HS & E). pose proof (ww_legal _ _ _ _ W z p HS) as LP.
    destruct (asked_text msg p HA LP E) as (s0 & rs & T). exists s0, rs. split; [exists p; auto |]. rewrite E. apply text_pubdata; assumption.
  - intros z s rs (p & HS & C1 & C2 & H & T & A & LB & O & X & I & K & F). destruct (ww_legal _ _ _ _ W z p HS) as (LO & LS & DN & LD & LL).
    split; [exact H |]. split; [| split].
    + pose proof C1 as (ls & P & EW & EN & _). exists ls. split; [exact P |]. split; [exact EN |]. unfold owner_octets in EW. rewrite !wire_name_labels in EW. apply wl_whole, app_inj_tail in EW as [<- _].
      change (rs_labels s = N.of_nat (length (star_tail (map lower (pb_owner p))))). rewrite LB, LL, star_lower. unfold star_tail. reflexivity.
    + intros ->. inversion F as [E0 |]. congruence.
    + rewrite T. clear - F. induction F as [| r d rs ds R F IH]; constructor; [| exact IH]. destruct (rdata_owner _ _ _ _ R) as (_ & RT & RN). auto.
  - exact (ww_root _ _ _ _ W).
  - intros z s rs k (p & HS & C1 & C2 & H & T & A & LB & O & X & I & K & F) T43 HK EN HD. rewrite <- EN. rewrite <- EN in C1, F.
    apply (ww_ds _ _ _ _ W z p k (flat_map ds_of rs) HS); [congruence | exact HK | exact C1 | | exact HD].
    rewrite <- T, T43 in F. clear - F. remember (pb_data p) as ds eqn:E. clear E. revert F. generalize (dk_name k). intros o F. induction F as [| r d rs ds R F IH]; [constructor |].
    destruct (rdata_owner _ _ _ _ R) as (_ & RT & _). destruct r; try discriminate RT. cbn [flat_map ds_of app]. constructor; [exact R | exact IH].
  - intros z s rs k (p & HS & C1 & C2 & H & T & A & LB & O & X & I & K & F) T48 HI. rewrite <- T, T48 in F.
    assert (G : exists d, In d (pb_data p) /\ RData CanonName false 48 (rs_name s) (RR_DnsKey k) d).
    { clear - F HI. induction F as [| r d rs ds R F IH]; [destruct HI |]. destruct HI as [-> | HI]; [exists d; split; [left; reflexivity | exact R] |]. destruct (IH HI) as (d' & D1 & D2). exists d'. split; [right; exact D1 | exact D2]. }
    destruct G as (d & D1 & D2). destruct (rdata_owner _ _ _ _ D2) as (_ & _ & RN). cbn [rr_name] in RN. rewrite <- RN in C1, D2. apply (ww_keys _ _ _ _ W z p k d HS); auto. congruence.
  - intros z s rs (p & HS & C1 & C2 & H & T & _) TT (q & EW). apply (ww_plain _ _ _ _ W z p HS); [rewrite <- T; exact TT |].
    destruct C1 as (ls & P & EB & EN & _). unfold owner_octets in EB. rewrite !wire_name_labels in EB. apply wl_whole, app_inj_tail in EB as [<- _]. rewrite EN in EW.
    destruct (pb_owner p) as [| l ls]; [discriminate EW |]. cbn [hd]. apply lower_star. destruct P as [P _]. inversion P as [| ? ? [P1 [_ P2]] _]; subst. cbn [map dotted] in EW. unfold dots in EW. cbn [map concat] in EW.
    destruct (lower l) as [| c m]; [congruence |]. cbn [app] in EW. injection EW as -> EW. destruct m as [| d m]; [reflexivity |]. cbn [app] in EW. injection EW as -> _. inversion P2 as [| ? ? _ P3]; subst. inversion P3 as [| ? ? (_ & _ & P4) _]; subst. congruence.
Qed.
Lemma published_wire Signs z v r : Published (text_signed Signs) z v r -> WirePublished Signs z v r.
Proof.
  intros (s & rs & (p & HS & C1 & C2 & H & T & A & LB & O & X & I & K & F) & EZ & ET & CV & SET & T1 & T2 & T3).
  exists p, (rs_name s). rewrite <- EZ, <- X, <- I, <- O. split; [rewrite EZ; exact HS |]. split; [exact C2 |]. split; [congruence |]. split; [exact C1 |]. split; [exact CV |].
  assert (F' : Forall2 (RData CanonName false (rr_ty r) (rs_name s)) rs (pb_data p)) by (rewrite <- ET, T; exact F).
  split; [| split; [| auto]].
  - intros d Hd. assert (G : exists x, In x rs /\ RData CanonName false (rr_ty r) (rs_name s) x d).
    { clear - F' Hd. induction F' as [| x d' xs ds R F IH]; [destruct Hd |]. destruct Hd as [-> | Hd]; [exists x; split; [left; reflexivity | exact R] |]. destruct (IH Hd) as (x' & G1 & G2). exists x'. split; [right; exact G1 | exact G2]. }
    destruct G as (x & G1 & G2). apply SET in G1 as (r' & R1 & R2 & R3 & ->). exists r'. split; [exact R1 |].
    apply (rdata_rename _ _ _ _ (rr_name r)) in G2. rewrite rename_rename, <- R2, rename_self in G2. rewrite <- R2. exact G2.
  - intros r' R1 R2 R3. assert (G : In (rename (rs_name s) r') rs) by (apply SET; exists r'; auto).
    assert (D : exists d, In d (pb_data p) /\ RData CanonName false (rr_ty r) (rs_name s) (rename (rs_name s) r') d).
    { clear - F' G. induction F' as [| x d' xs ds R F IH]; [destruct G |]. destruct G as [-> | G]; [exists d'; split; [left; reflexivity | exact R] |]. destruct (IH G) as (d & G1 & G2). exists d. split; [right; exact G1 | exact G2]. }
    destruct D as (d & D1 & D2). exists d. split; [exact D1 |]. apply (rdata_rename _ _ _ _ (rr_name r)) in D2. rewrite rename_rename, <- R2, rename_self in D2. rewrite <- R2. exact D2.
Qed.
Lemma proof_wire e KeyOf Honest Signs dbg fuel proof inp v r : WireWorld e KeyOf Honest Signs -> is_bytes proof ->
  parse_rr_stream dbg proof = Ok inp -> verify_rr_stream e dbg fuel inp = Ok v -> In r (vr_rrs v) ->
  (forall d p, rr_name r = p ++ d -> proper_name d -> Honest d) ->
  exists z p, rr_name r = p ++ z /\ proper_name z /\ WirePublished Signs z v r.
Proof.
  intros W B P V I H. destruct (proof_published e KeyOf Honest (text_signed Signs) dbg fuel proof inp v r (world_of _ _ _ _ W) B P V I H) as (z & p & E & PN & PB).
  exists z, p. split; [exact E |]. split; [exact PN |]. apply published_wire. exact PB.
Qed.
