(** A message signed by a zone can be read as one RRset only. *)
From Verif Require Import Base BaseP NameM WireM RRM SerM ValM NameSpec NameP WireSpec WireP RecSpec RecP RecP2 BitmapSpec BitmapP CodecSpec QueryP ValSpec ValP ValP2 ValP3 SignedP HeldP SecSpec.
From Coq Require Import Permutation.
Local Open Scope N_scope.

Lemma u32_inj a b : u32 a = u32 b -> a = b.
Proof.
  unfold u32. intros E. injection E as E1 E2 E3 E4. rewrite (N.div_mod a 256), (N.div_mod b 256) by lia. rewrite E4. f_equal. f_equal.
  rewrite (N.div_mod (a / 256) 256), (N.div_mod (b / 256) 256) by lia. rewrite E3. f_equal. f_equal. rewrite !N.div_div by lia. change (256 * 256) with 65536.
  rewrite (N.div_mod (a / 65536) 256), (N.div_mod (b / 65536) 256) by lia. rewrite E2. f_equal. f_equal. rewrite !N.div_div by lia. exact E1.
Qed.
Lemma u32_app_inv a b x y : u32 a ++ x = u32 b ++ y -> a = b /\ x = y.
Proof. intros E. apply app_inv_len in E; [|reflexivity]. destruct E as [E ->]. apply u32_inj in E. auto. Qed.
Lemma cons_inv {A} (x y : A) l m : x :: l = y :: m -> x = y /\ l = m.
Proof. intros E. injection E. auto. Qed.

(** Label sequences. *)
Lemma wl_cons l ls : wire_labels (l :: ls) = N.of_nat (length l) :: l ++ wire_labels ls.
Proof. reflexivity. Qed.
Lemma wl_inj L : forall M ty X Y, Forall label_ok L -> Forall label_ok M -> 1 <= ty ->
  wire_labels L ++ 0 :: ty :: 0 :: X = wire_labels M ++ 0 :: ty :: 0 :: Y -> L = M /\ X = Y.
Proof.
  assert (Z : forall M ty X Y, Forall label_ok M -> 1 <= ty -> M <> [] -> 0 :: ty :: 0 :: X = wire_labels M ++ 0 :: ty :: 0 :: Y -> False).
  { intros [| m [| m' M]] ty X Y HM Ht N E; [congruence | |]; rewrite wl_cons in E; cbn [app] in E.
    - destruct m; [| discriminate]. cbn [app wire_labels flat_map] in E. injection E as E _. lia.
    - destruct m; [| discriminate]. cbn [app length] in E. rewrite wl_cons in E. cbn [app] in E. injection E as E1 E2.
      inversion HM as [| ? ? _ HM']; subst. inversion HM' as [| ? ? [_ Hm] _]; subst. destruct m' as [| c m']; [cbn in Ht; lia |].
      cbn [app] in E2. injection E2 as <- _. inversion Hm as [| ? ? [Hc _] _]. lia. }
  induction L as [| l L IH]; intros M ty X Y HL HM Ht E.
  - destruct M as [| m M]; [cbn [wire_labels flat_map app] in E; injection E as ->; auto |]. exfalso. eapply (Z (m :: M)); [exact HM | exact Ht | discriminate | exact E].
  - destruct M as [| m M]; [exfalso; symmetry in E; eapply (Z (l :: L)); [exact HL | exact Ht | discriminate | exact E] |].
    rewrite !wl_cons in E. cbn [app] in E. injection E as E1 E2. rewrite <- !app_assoc in E2. apply app_inv_len in E2; [| unfold len; exact E1].
    destruct E2 as [-> E2]. inversion HL; inversion HM; subst. destruct (IH M ty X Y) as [-> ->]; auto.
Qed.
Lemma wl_whole L : forall M, wire_labels L = wire_labels M -> L = M.
Proof.
  induction L as [| l L IH]; intros [| m M] E; try reflexivity; try discriminate. rewrite !wl_cons in E. injection E as E1 E2.
  apply app_inv_len in E2; [| unfold len; exact E1]. destruct E2 as [-> E2]. f_equal. auto.
Qed.
Lemma wire_name_labels ls : wire_name ls = wire_labels (ls ++ [[]]).
Proof. unfold wire_name. rewrite wire_labels_app. reflexivity. Qed.
Lemma two_names sl L : forall sm ms : list (list N), Forall (fun l => l <> []) sm -> Forall (fun l => l <> []) ms ->
  (sl ++ [[]]) ++ L = (sm ++ [[]]) ++ ms -> sl = sm /\ L = ms.
Proof.
  induction sl as [| x sl IH]; intros [| y sm] ms H1 H2 E; cbn [app] in E.
  - injection E as ->. auto.
  - injection E as E _. inversion H1; subst; congruence.
  - injection E as _ E. subst ms. exfalso. rewrite Forall_forall in H2. apply (H2 []); [| reflexivity].
    apply in_or_app. left. apply in_or_app. right. left. reflexivity.
  - injection E as -> E. inversion H1; subst. destruct (IH sm ms) as [-> ->]; auto.
Qed.

Lemma valid_lower n : valid_name n -> lower n = n.
Proof. intros H. apply name_try_from_spec in H as [_ H]. auto. Qed.
Lemma labels_wire n ls : LabelsOf n ls -> lower n = n -> write_name n = wire_name ls.
Proof.
  intros (-> & H & N) L. destruct ls as [| l ls]; [reflexivity |]. apply write_name_dots; auto. discriminate.
Qed.
Lemma suffix_lower pre suf : lower (dotted (pre ++ suf)) = dotted (pre ++ suf) -> lower (dotted suf) = dotted suf.
Proof.
  destruct suf as [| x suf]; [reflexivity |]. intros L. assert (D : dotted (pre ++ x :: suf) = dots (pre ++ x :: suf)) by (destruct pre; reflexivity).
  rewrite D, dots_app in L. unfold lower in L. rewrite map_app in L. apply app_inv_len in L as [_ L]; [exact L | apply len_map].
Qed.
Lemma canon_labels b n : CanonName b n -> exists ms, Forall label_ok ms /\ Forall (fun l => l <> []) ms /\ b = wire_name ms /\ n = dotted ms.
Proof.
  intros (ms & [P _] & H1 & H2 & _). exists ms. split; [eapply Forall_impl; [| exact P]; cbn; tauto |]. split; [eapply Forall_impl; [| exact P]; cbn; tauto | auto].
Qed.
Lemma proper_labelsof ms : Forall label_ok ms -> Forall (fun l => l <> []) ms -> LabelsOf (dotted ms) ms.
Proof. intros H1 H2. split; [reflexivity |]. split; [exact H1 |]. intros ->. inversion H2; congruence. Qed.

(** The owner as signed. *)
Definition star_tail (ls : list (list N)) : list (list N) := match ls with [42] :: t => t | _ => ls end.
Lemma star_cases ls : (exists t, ls = [42] :: t /\ star_tail ls = t) \/ (~ (exists t, ls = [42] :: t) /\ star_tail ls = ls).
Proof.
  destruct ls as [| l t]; [right; split; [intros [? ?]; discriminate | reflexivity] |].
  destruct (list_eq_dec N.eq_dec l [42]) as [-> | NE]; [left; exists t; auto |]. right. split; [intros (t' & E); injection E as E _; contradiction |].
  destruct l as [| c l]; [reflexivity |]. destruct l as [| d l]; [| cbn; repeat (match goal with |- context [match ?x with _ => _ end] => destruct x end; try reflexivity)].
  cbn. repeat (match goal with |- context [match ?x with _ => _ end] => destruct x end; try reflexivity); congruence.
Qed.
Lemma owner_labels s r b : valid_name (rr_name r) -> SignedOwner s r b ->
  exists L, Forall label_ok L /\ b = wire_name L /\
    (forall ms, Forall (fun l => l <> []) ms -> Forall label_ok ms -> rs_labels s = N.of_nat (length (star_tail ms)) -> L = ms ->
      Covers (dotted ms) (rr_name r) /\ ((forall t, ms <> [42] :: t) \/ rr_ty r = 47 -> rr_name r = dotted ms)).
Proof.
  intros V H. assert (LW := valid_lower _ V). inversion H as [ls Hl Hn | Hn | pre suf Ht Hl Hp Hn]; subst.
  - exists ls. split; [apply Hl |]. split; [apply labels_wire; auto |]. intros ms _ _ _ <-. destruct Hl as [E _]. split; [left |]; auto.
  - destruct (valid_labels _ V) as (ls & Hl & _). exists ls. split; [apply Hl |]. split; [apply labels_wire; auto |]. intros ms _ _ _ <-. destruct Hl as [E _]. split; [left |]; auto.
  - assert (OK : Forall label_ok suf) by (destruct Hl as (_ & Hl & _); apply Forall_app in Hl; apply Hl).
    assert (LS : lower (dotted suf) = dotted suf) by (destruct Hl as (E & _ & _); rewrite E in LW; apply suffix_lower in LW; exact LW).
    assert (S42 : label_ok [42]) by (split; [cbn; lia |]; constructor; [| constructor]; split; [lia | split; discriminate]).
    destruct (list_eq_dec (list_eq_dec N.eq_dec) suf [[]]) as [-> | NE].
    + exists [[42]]. split; [constructor; auto |]. split; [reflexivity |]. intros ms Hne Hms HR <-. exfalso. rewrite <- Hn in HR. cbn in HR. discriminate.
    + exists ([42] :: suf). split; [constructor; auto |]. split; [cbn [app]; rewrite (labels_wire (dotted suf) suf); [reflexivity | split; auto | exact LS] |].
      intros ms Hne Hms _ <-. split; [| intros [G | G]; exfalso; [apply (G suf); reflexivity | contradiction]]. right. exists pre, suf. auto.
Qed.

(** The RDATA. *)
Lemma strs_inj a : forall b, flat_map (fun s : list N => length_of s :: s) a = flat_map (fun s => length_of s :: s) b -> a = b.
Proof.
  induction a as [| x a IH]; intros [| y b] E; try reflexivity; try discriminate. cbn [flat_map app] in E. injection E as E1 E2.
  apply app_inv_len in E2; [| exact E1]. destruct E2 as [-> E2]. f_equal. auto.
Qed.
Lemma bitmap_fun bits m m' : BitmapEnc bits m -> BitmapEnc bits m' -> m = m'.
Proof. intros H H'. apply read_bitmap_spec in H, H'. congruence. Qed.
Lemma rdata_fun ty o r r' d : ty <> 46 -> RData CanonName false ty o r d -> RData CanonName false ty o r' d -> r = r'.
Proof.
  intros U1 H H'. destruct H; try contradiction; inversion H'; subst; try reflexivity;
    repeat match goal with HH : false = true \/ ?x = [] |- _ => destruct HH as [HH | HH]; [discriminate HH | subst x] | HH : context [_ ++ []] |- _ => rewrite app_nil_r in HH end; subst;
    try (do 3 f_equal; eapply canon_name_inj; eassumption).
  - match goal with HH : flat_map _ _ = flat_map _ _ |- _ => apply strs_inj in HH; subst end. reflexivity.
  - assert (f0 = f) as -> by (apply u16_inj; unfold u16; congruence). reflexivity.
  - assert (t0 = t) as -> by (apply u16_inj; unfold u16; congruence). reflexivity.
  - match goal with E : _ ++ _ = _ ++ _, A : CanonName ?b0 _, B : CanonName ?b1 _ |- _ => apply (NamePlain_unambiguous _ _ _ _ _ _ (Canon_plain _ _ A) (Canon_plain _ _ B)) in E as (-> & -> & ->) end.
    do 2 f_equal. eapply bitmap_fun; eassumption.
  - assert (it0 = it) as -> by (apply u16_inj; unfold u16; congruence).
    match goal with E : salt0 ++ _ = salt ++ _ |- _ => apply app_inv_len in E; [| assumption]; destruct E as [-> E]; apply lp_inv in E as [-> ->] end.
    do 2 f_equal. eapply bitmap_fun; eassumption.
Qed.
Lemma rdata_rename ty o r d o' : RData CanonName false ty o r d -> RData CanonName false ty o' (rename o' r) d.
Proof. intros H. destruct H; cbn [rename]; try (constructor; assumption); cbn; econstructor; eassumption. Qed.
Lemma rdata_owner ty o r d : RData CanonName false ty o r d -> rename o r = r /\ rr_ty r = ty /\ rr_name r = o.
Proof. intros H. destruct H; auto. Qed.
Lemma rename_rename a b r : rename a (rename b r) = rename a r.
Proof. destruct r; reflexivity. Qed.
Lemma rename_ty o r : rr_ty (rename o r) = rr_ty r.
Proof. destruct r; reflexivity. Qed.
Lemma rename_data o r : write_data (rename o r) = write_data r.
Proof. destruct r; reflexivity. Qed.
Lemma rename_self r : rename (rr_name r) r = r.
Proof. destruct r as [[]|[]|[]|[]|[]|[]|[]|[]|[]|[]|[]|[]]; reflexivity. Qed.

Lemma root_proper : proper_name [46].
Proof. exists []. split; [split; [constructor | cbn; lia] | split; reflexivity]. Qed.
Lemma name_data_inj t b n X Y : valid_name t -> CanonName b n -> length_of b <= 65535 -> name_write t ++ X = u16 (length_of b) ++ b ++ Y -> t = n /\ X = Y.
Proof.
  intros V C HB E. unfold name_write in E. rewrite <- app_assoc in E. destruct (held_name_len _ V) as [NL1 NL2]. rewrite be16_u16 in E by (rewrite NL1; lia).
  destruct (valid_labels _ V) as (ls & L1 & _). assert (W := labels_wire _ _ L1 (valid_lower _ V)).
  assert (LEN : name_len t = length_of (write_name t)).
  { rewrite W. destruct L1 as (-> & A & B). destruct ls as [| l ls]; [reflexivity |]. change (dotted (l :: ls)) with (dots (l :: ls)) in *. rewrite name_len_wire_gen; [reflexivity | | exact A | exact B | discriminate]. apply name_try_from_spec in V as [(ms & _ & _ & _ & V) _]. exact V. }
  apply u16_app_inv in E as [E1 E]. apply app_inv_len in E; [| unfold length_of in *; unfold len; congruence]. destruct E as [E ->]. split; [| reflexivity].
  destruct (canon_labels _ _ C) as (ms & M1 & M2 & -> & ->). rewrite W, !wire_name_labels in E. apply wl_whole, app_inj_tail in E as [-> _]. apply L1.
Qed.
Lemma data_inj r r0 o d X Y : Held r -> fits_rr r -> clear r -> RData CanonName false (rr_ty r) o r0 d ->
  (rr_ty r = 16 -> d <> []) -> length_of d <= 65535 -> write_data r ++ X = u16 (length_of d) ++ d ++ Y -> r0 = rename o r /\ X = Y.
Proof.
  intros HH HF U HR HT HL E.
  assert (PL : wf_rr (rename [46] r) -> r0 = rename o r /\ X = Y).
  { intros W. destruct (write_data_canon _ W) as (d' & W1 & W2 & _ & W4 & _). rewrite rename_data in W1. rewrite W1, <- app_assoc in E.
    change (len d') with (length_of d') in E. apply u16_app_inv in E as [E1 E]. apply app_inv_len in E; [| exact E1]. destruct E as [-> ->]. split; [| reflexivity].
    rewrite rename_ty in W4. assert (NR : rr_name (rename [46] r) = [46]) by (destruct r; reflexivity). rewrite NR in W4.
    apply (rdata_rename _ _ _ _ [46]) in HR as HR'. assert (Q := rdata_fun _ _ _ _ _ (proj1 U) HR' W4). apply (f_equal (rename o)) in Q. rewrite !rename_rename in Q.
    rewrite (proj1 (rdata_owner _ _ _ _ HR)) in Q. exact Q. }
  unfold Held in HH. destruct r as [r|r|r|r|r|r|r|r|r|r|r|r]; cbn [typed_rr fits_rr rr_ty] in *;
    try (apply PL; split; [cbn [rename typed_rr]; split; [exact root_proper | apply HH] | split; [exact HF | exact I]]);
    try (exfalso; apply (proj1 U); reflexivity).
  - inversion HR as [| |o' b n ex Hc Hx| | | | | | | | |]; subst. destruct Hx as [Hx | ->]; [discriminate Hx |]. rewrite app_nil_r in *. cbn [write_data] in E.
    apply (name_data_inj _ _ _ _ _ (proj2 HH) Hc HL) in E as [<- ->]. auto.
  - assert (TD : tx_data r = [] \/ tx_data r <> []) by (destruct (tx_data r); [left; reflexivity | right; discriminate]). destruct TD as [ED | ED].
    + exfalso. cbn [write_data] in E. unfold txt_write in E. rewrite ED in E. cbn in E. destruct d; [apply HT; reflexivity |].
      assert (L0 : 0 < length_of (n :: d)) by (unfold length_of; cbn [length]; lia). unfold u16 in E. cbn [app] in E. injection E as E1 E2 _.
      rewrite (N.div_mod (length_of (n :: d)) 256), <- E1, <- E2 in L0 by lia. cbn in L0. lia.
    + apply PL. split; [cbn [rename typed_rr]; split; [exact root_proper | apply HH] | split; [exact HF |]]. exact ED.
  - inversion HR as [| | |o' b n ex Hc Hx| | | | | | | |]; subst. destruct Hx as [Hx | ->]; [discriminate Hx |]. rewrite app_nil_r in *. cbn [write_data] in E.
    apply (name_data_inj _ _ _ _ _ (proj2 HH) Hc HL) in E as [<- ->]. auto.
  - inversion HR as [| | | |o' b n ex Hc Hx| | | | | | |]; subst. destruct Hx as [Hx | ->]; [discriminate Hx |]. rewrite app_nil_r in *. cbn [write_data] in E.
    apply (name_data_inj _ _ _ _ _ (proj2 HH) Hc HL) in E as [<- ->]. auto.
  - apply PL. split; [cbn [rename typed_rr]; split; [exact root_proper | split; [apply U | apply HH]] | split; [exact HF | exact I]].
Qed.

(** One record, after the same number of bytes. *)
Lemma ty_range r : rr_ty r / 256 = 0 /\ rr_ty r mod 256 = rr_ty r /\ 1 <= rr_ty r.
Proof. destruct r; vm_compute; (split; [reflexivity | split; [reflexivity | discriminate]]). Qed.
Lemma piece_inj s s0 r r0 P Q b b0 X Y : Forall label_ok P -> Forall label_ok Q -> Held r -> fits_rr r -> clear r -> rr_ty r0 = rr_ty r ->
  rs_orig_ttl s0 = rs_orig_ttl s -> SignedRR s r b -> PubRecord s0 r0 b0 -> wire_labels P ++ b ++ X = wire_labels Q ++ b0 ++ Y ->
  exists L ms, P ++ L = Q ++ ms /\ Forall label_ok ms /\ Forall (fun l => l <> []) ms /\ rr_name r0 = dotted ms /\
    (rs_labels s = N.of_nat (length (star_tail ms)) -> L = ms -> Covers (dotted ms) (rr_name r) /\ ((forall t, ms <> [42] :: t) \/ rr_ty r = 47 -> rr_name r = dotted ms)) /\
    r0 = rename (rr_name r0) r /\ X = Y.
Proof.
  intros HP HQ HH HF U HT HTT (ow & O & ->) (ow0 & d & C & D & DT & DL & ->) E. rewrite HT, HTT in *.
  assert (V : valid_name (rr_name r)) by (destruct r; apply HH).
  destruct (owner_labels _ _ _ V O) as (L & L1 & -> & L3). destruct (canon_labels _ _ C) as (ms & M1 & M2 & -> & M4).
  exists L, ms. destruct (ty_range r) as (T1 & T2 & T3).
  rewrite !wire_name_labels, <- !app_assoc in E. rewrite !(app_assoc (wire_labels _) (wire_labels _)), <- !wire_labels_app in E. unfold u16 at 1 3 in E. rewrite T1, T2 in E. cbn [app] in E.
  assert (S0 : label_ok []) by (split; [cbn; lia | constructor]).
  assert (FA : forall A B, Forall label_ok A -> Forall label_ok B -> Forall label_ok (A ++ B ++ [[]])) by (intros A B HA HB; apply Forall_app; split; [exact HA |]; apply Forall_app; split; [exact HB |]; constructor; [exact S0 | constructor]).
  unfold u16 at 1 3 in E. cbn [app] in E. change (1 / 256) with 0 in E. change (1 mod 256) with 1 in E.
  apply wl_inj in E; [| apply FA; auto | apply FA; auto | exact T3]. destruct E as [E1 E2]. rewrite !app_assoc in E1. apply app_inj_tail in E1 as [E1 _].
  split; [exact E1 |]. split; [exact M1 |]. split; [exact M2 |]. split; [exact M4 |]. split; [intros HR HL; apply L3; auto |].
  injection E2 as E2.
  apply (data_inj r r0 (rr_name r0) d X Y HH HF U D DT DL) in E2. exact E2.
Qed.

Lemma pieces_inj s s0 o rs : forall rs0 ps ps0, Forall Held rs -> Forall fits_rr rs -> Forall (fun r => clear r /\ rr_ty r = rs_ty s) rs ->
  Forall (fun r => rr_name r = o /\ rr_ty r = rs_ty s) rs0 -> rs_orig_ttl s0 = rs_orig_ttl s ->
  Forall2 (SignedRR s) rs ps -> Forall2 (PubRecord s0) rs0 ps0 -> concat ps = concat ps0 -> rs0 = map (rename o) rs.
Proof.
  assert (NZ : forall r b, SignedRR s r b -> b <> []).
  { intros r b (ow & _ & ->) E. apply app_eq_nil in E as [_ E]. discriminate. }
  assert (NZ0 : forall r b, PubRecord s0 r b -> b <> []).
  { intros r b (ow & d & _ & _ & _ & _ & ->) E. apply app_eq_nil in E as [_ E]. discriminate. }
  induction rs as [| r rs IH]; intros rs0 ps ps0 H1 H2 H3 H4 H5 F F0 E.
  - inversion F; subst. inversion F0 as [| r0 b0 rs1 ps1 B0 F1]; subst; [reflexivity |]. exfalso. cbn [concat] in E. symmetry in E. apply app_eq_nil in E as [E _]. eapply NZ0; eauto.
  - inversion F as [| ? b ? ps' B F']; subst. inversion F0 as [| r0 b0 rs1 ps1 B0 F1]; subst.
    + exfalso. cbn [concat] in E. apply app_eq_nil in E as [E _]. eapply NZ; eauto.
    + inversion H1; inversion H2; inversion H3 as [| ? ? [U T] ?]; inversion H4 as [| ? ? [N0 T0] ?]; subst. cbn [concat] in E.
      destruct (piece_inj s s0 r r0 [] [] b b0 (concat ps') (concat ps1)) as (L & ms & _ & _ & _ & _ & _ & R & X); auto; [congruence |].
      cbn [map]. f_equal; [exact R |]. eapply IH; eauto.
Qed.

(** The whole message. *)
Lemma msg_inj s rs s0 rs0 msg n : Held (RR_RRSig s) -> Forall Held rs -> Forall fits_rr rs -> rs <> [] -> Forall clear rs ->
  Forall (fun r => rr_name r = n /\ rr_ty r = rs_ty s) rs -> RfcLabels s0 -> rs0 <> [] -> Forall (fun r => rr_name r = rs_name s0 /\ rr_ty r = rs_ty s0) rs0 ->
  SignedData s rs msg -> PubData s0 rs0 msg ->
  rs_ty s0 = rs_ty s /\ rs_labels s0 = rs_labels s /\ rs_orig_ttl s0 = rs_orig_ttl s /\ rs_expiration s0 = rs_expiration s /\ rs_inception s0 = rs_inception s /\ rs_key_name s0 = rs_key_name s /\
  rs0 = map (rename (rs_name s0)) rs /\ Covers (rs_name s0) n /\ (~ is_wildcard (rs_name s0) \/ rs_ty s = 47 -> n = rs_name s0).
Proof.
  intros HS HH HF NE U HR HL NE0 HR0 (ps & F & ->) (sg & ps0 & C & F0 & E). unfold rrsig_rdata in E. rewrite <- !app_assoc in E. cbn [app] in E. rewrite <- ?app_assoc in E.
  apply u16_app_inv in E as [ET E]. apply cons_inv in E as [EA E]. apply cons_inv in E as [EL E]. apply u32_app_inv in E as [EO E]. apply u32_app_inv in E as [EX E]. apply u32_app_inv in E as [EI E]. apply u16_app_inv in E as [EK E].
  split; [auto |]. split; [auto |]. split; [auto |]. split; [auto |]. split; [auto |].
  destruct rs as [| r rs]; [congruence |]. destruct rs0 as [| r0 rs0]; [congruence |]. inversion F as [| ? b ? ps' B F']; subst. inversion F0 as [| ? b0 ? ps1 B0 F1]; subst.
  assert (VK : valid_name (rs_key_name s)) by apply HS. destruct (valid_labels _ VK) as (ks & K1 & _). rewrite (labels_wire _ _ K1 (valid_lower _ VK)) in E.
  destruct (canon_labels _ _ C) as (kms & KM1 & KM2 & -> & KM4). rewrite !wire_name_labels in E. cbn [concat] in E.
  inversion HH; inversion HF; inversion HR as [| ? ? [Nr Tr] HR']; inversion HR0 as [| ? ? [Nr0 Tr0] HR0']; subst.
  assert (S0 : Forall label_ok [[]]) by (constructor; [split; [cbn; lia | constructor] | constructor]).
  destruct (piece_inj s s0 r r0 (ks ++ [[]]) (kms ++ [[]]) b b0 (concat ps') (concat ps1)) as (L & ms & E1 & M1 & M2 & M3 & M4 & R & X); auto.
  - apply Forall_app. split; [apply K1 | exact S0].
  - apply Forall_app. split; [exact KM1 | exact S0].
  - inversion U; assumption.
  - congruence.
  - apply two_names in E1 as [-> ->]; auto. split; [rewrite KM4; symmetry; apply K1 |].
    assert (R0 : rs0 = map (rename (rs_name s0)) rs).
    { eapply (pieces_inj s s0); eauto.
      - rewrite Forall_forall in HR', U |- *. intros a Ha. split; [apply U; right; exact Ha | apply HR'; exact Ha].
      - eapply Forall_impl; [| exact HR0']. cbn. intros a [-> ->]. auto. }
    split; [cbn [map]; f_equal; [rewrite <- Nr0; exact R | exact R0] |]. rewrite Nr0 in M3.
    destruct HL as (ls & P & LN & LL). assert (ls = ms) as ->.
    { apply (labelsof_inj (rs_name s0)); [| rewrite M3; apply proper_labelsof; assumption]. rewrite LN. apply proper_labelsof; eapply Forall_impl; try apply (proj1 P); cbn; tauto. }
    destruct (M4 ltac:(rewrite EL; exact LL) eq_refl) as [M5 M6]. rewrite M3. split; [exact M5 |]. intros [NW | NW]; apply M6; [left | right; congruence]. intros t ->. apply NW. destruct t; eexists; reflexivity.
Qed.
