(** Messages for which many octets are looked at. *)
From Verif Require Import Base BaseP NameM WireM WireP RRM SerM QueryM RecSpec RecP RecP2 LocalW StepM StepSpec StepP.
From Coq Require Import Lia PeanoNat NArith.
Local Open Scope N_scope.

(** Pointers one to the next, and at the end a name of 255 octets; the whole at offset [o] of a message. *)
Definition ptr (o : N) : bytes := [192 + o / 256; o mod 256].
Definition lab (c : N) (n : nat) : bytes := repeat c n.
Definition text : bytes := 63 :: lab 97 63 ++ 63 :: lab 98 63 ++ 63 :: lab 99 63 ++ 62 :: lab 100 62 ++ [0].
Fixpoint chain (o : N) (j : nat) : bytes := match j with O => text | S j => ptr (o + 2) ++ chain (o + 2) j end.

Lemma step_label J w f l lb T nm : len lb = l -> 0 < l < 192 -> 0 < len T -> utf8_ok lb = true -> len nm + l + 1 <= 255 ->
  s_labels_loop J w (S f) (l :: lb ++ T) nm = (1 + l + fst (s_labels_loop J w f T (nm ++ lb ++ [dot])), snd (s_labels_loop J w f T (nm ++ lb ++ [dot]))).
Proof.
  intros L R P U F. cbn [s_labels_loop]. destruct (N.eqb_spec l 0); [lia |].
  assert (E1 : len (lb ++ T) <=? l = false) by (apply N.leb_gt; rewrite len_app; lia). assert (E2 : takeN l (lb ++ T) = lb) by (rewrite <- L; apply takeN_app_len). assert (E3 : dropN l (lb ++ T) = T) by (rewrite <- L; apply dropN_app_len).
  assert (E4 : 255 <? len (nm ++ lb ++ [dot]) = false) by (apply N.ltb_ge; rewrite !len_app; change (len [dot]) with 1; lia).
  rewrite E1, E2, E3, E4, U. cbn [negb]. assert (E5 : 192 <=? l = false) by (apply N.leb_gt; lia). rewrite E5. destruct J; destruct (s_labels_loop _ w f T _); reflexivity.
Qed.
Lemma text_read J w f T : s_labels_loop J w (5 + f) (text ++ T) [] = (256, Ok (lo_name, T)).
Proof.
  unfold text. cbn [plus]. cbn [app]. rewrite <- !app_assoc. cbn [app]. rewrite <- !app_assoc. cbn [app]. rewrite <- !app_assoc. cbn [app]. rewrite <- !app_assoc.
  rewrite step_label; [| reflexivity | lia | rewrite len_cons; lia | reflexivity | vm_compute; discriminate].
  rewrite step_label; [| reflexivity | lia | rewrite len_cons; lia | reflexivity | vm_compute; discriminate].
  rewrite step_label; [| reflexivity | lia | rewrite len_cons; lia | reflexivity | vm_compute; discriminate].
  rewrite step_label; [| reflexivity | lia | cbn [app]; rewrite len_cons; lia | reflexivity | vm_compute; discriminate].
  cbn [app s_labels_loop]. change (0 =? 0) with true. cbv iota. cbn [fst snd]. vm_compute (_ + _). reflexivity.
Qed.
Lemma ptr_value o : o < 16384 -> (192 + o / 256 =? 0) = false /\ (192 <=? 192 + o / 256) = true /\ (192 + o / 256 - 192) * 256 + o mod 256 = o.
Proof. intros _. pose proof (N.div_mod' o 256) as D. set (a := o / 256) in *. set (b := o mod 256) in *. clearbody a b. split; [apply N.eqb_neq; lia |]. split; [apply N.leb_le; lia | lia]. Qed.
Lemma chain_len j : forall o, len (chain o j) = 2 * N.of_nat j + 256.
Proof. induction j as [| j IH]; intros o; [vm_compute; reflexivity |]. cbn [chain]. rewrite len_app, IH. change (len (ptr (o + 2))) with 2. lia. Qed.
Lemma jump_read o L w X c nm r : o < 16384 -> o < len w -> s_do_read L w (dropN o w) [] = (c, Ok (nm, r)) -> s_do_read (S L) w (ptr o ++ X) [] = (2 + c, Ok (nm, X)).
Proof.
  intros H LW E. cbn [s_do_read]. unfold ptr. cbn [app List.length]. destruct (ptr_value o H) as (P1 & P2 & P3). cbn [s_labels_loop]. rewrite P1, P2, P3. assert (E1 : len w <=? o = false) by (apply N.leb_gt; lia). rewrite E1, E. cbn [cbind free]. rewrite N.add_0_r. reflexivity.
Qed.
Lemma chain_read j : forall L pre T, (j <= L)%nat -> len pre + 2 * N.of_nat j < 16384 -> exists r, s_do_read L (pre ++ chain (len pre) j ++ T) (chain (len pre) j ++ T) [] = (2 * N.of_nat j + 256, Ok (lo_name, r)).
Proof.
  induction j as [| j IH]; intros L pre T HL HP.
  - exists T. assert (E : forall J w, s_labels_loop J w (S (List.length (text ++ T))) (text ++ T) [] = (256, Ok (lo_name, T))).
    { intros J w. replace (S (List.length (text ++ T))) with (5 + (List.length text + List.length T - 4))%nat; [apply text_read |]. rewrite app_length. change (List.length text) with 256%nat. lia. }
    cbn [chain]. destruct L; cbn [s_do_read]; apply E.
  - destruct L as [| L]; [lia |]. cbn [chain]. set (o := len pre) in *. destruct (IH L (pre ++ ptr (o + 2)) T) as [r E]; [lia | rewrite len_app; change (len (ptr (o + 2))) with 2; fold o; lia |].
    assert (LP : len (pre ++ ptr (o + 2)) = o + 2) by (rewrite len_app; reflexivity). rewrite LP in E. eexists. rewrite <- (app_assoc (ptr (o + 2))).
    rewrite (jump_read (o + 2) L _ _ (2 * N.of_nat j + 256) lo_name r); [f_equal; lia | lia | rewrite !len_app, chain_len; change (len (ptr (o + 2))) with 2; fold o; lia |].
    rewrite (app_assoc pre). replace (dropN (o + 2) ((pre ++ ptr (o + 2)) ++ chain (o + 2) j ++ T)) with (chain (o + 2) j ++ T) by (symmetry; apply dropN_app; symmetry; exact LP). exact E.
Qed.

(** A response with one DS record, in whose data the pointers are, and [k] CNAME records of 14 octets. *)
Definition many_cn : bytes := [192; 32; 0; 5; 0; 1; 0; 0; 0; 0; 0; 2; 192; 32].
Definition many_head (k : N) : bytes := [0; 0; 128; 32; 0; 1] ++ be16 (1 + k) ++ [0; 0; 0; 0; 0; 0; 1; 0; 1] ++ [0; 0; 43; 0; 1; 0; 0; 0; 0; 3; 0; 0; 1; 8; 2].
Definition many_cns (k : nat) : bytes := concat (repeat many_cn k).
Definition many (k : nat) : bytes := many_head (N.of_nat k) ++ chain 32 254 ++ many_cns k.
Lemma many_len k : len (many k) = 796 + 14 * N.of_nat k.
Proof.
  unfold many, many_head. rewrite !len_app, len_be16, chain_len. enough (len (many_cns k) = 14 * N.of_nat k) by (change (len [0; 0; 128; 32; 0; 1]) with 6; change (len [0; 0; 0; 0; 0; 0; 1; 0; 1]) with 9; change (len [0; 0; 43; 0; 1; 0; 0; 0; 0; 3; 0; 0; 1; 8; 2]) with 15; lia).
  unfold many_cns. induction k as [| k IH]; [reflexivity |]. cbn [repeat concat]. rewrite len_app, IH. change (len many_cn) with 14. lia.
Qed.
Lemma many_name k X : s_read_name (192 :: 32 :: X) (many k) = (766, Ok (lo_name, X)).
Proof.
  unfold s_read_name. change (192 :: 32 :: X) with (ptr 32 ++ X). change 255%nat with (S 254). destruct (chain_read 254 254 (many_head (N.of_nat k)) (many_cns k)) as [r E]; [lia | |]; assert (LH : len (many_head (N.of_nat k)) = 32) by (unfold many_head; rewrite !len_app, len_be16; reflexivity).
  - rewrite LH. lia.
  - rewrite LH in E. rewrite (jump_read 32 254 (many k) X 764 lo_name r); [reflexivity | lia | rewrite many_len; lia |]. unfold many at 2. rewrite dropN_app by (symmetry; exact LH). exact E.
Qed.
Lemma many_rr k X : s_parse_wire_packet_rr false (many_cn ++ X) (many k) = (1532, Ok (RR_CName {| cn_name := lo_name; cn_canonical := lo_name |}, 0, X)).
Proof.
  unfold s_parse_wire_packet_rr. change (many_cn ++ X) with (192 :: 32 :: 0 :: 5 :: 0 :: 1 :: 0 :: 0 :: 0 :: 0 :: 0 :: 2 :: 192 :: 32 :: X). rewrite many_name. cbn [cbind]. unfold read_u16 at 1. cbn [cbind free]. unfold read_u16 at 1. cbn [cbind free]. change (negb (0 * 256 + 1 =? 1)) with false. cbv iota. unfold read_u32. cbn [cbind free]. unfold read_u16. cbn [cbind free].
  change (0 * 256 + 2) with 2. assert (E : len (192 :: 32 :: X) <? 2 = false) by (apply N.ltb_ge; rewrite !len_cons; lia). rewrite E. change (takeN 2 (192 :: 32 :: X)) with [192; 32]. change (dropN 2 (192 :: 32 :: X)) with X. unfold s_read_data. change (0 * 256 + 5 =? T_NS) with false. change (0 * 256 + 5 =? T_CNAME) with true. cbv iota. unfold s_single_name. rewrite many_name. reflexivity.
Qed.
Lemma many_section k n : forall X t hs, exists t' hs', s_read_section false (many k) (fun _ => true) n (many_cns n ++ X) t hs = (1532 * N.of_nat n, (Ok (t', X), hs')).
Proof.
  induction n as [| n IH]; intros X t hs; [eexists; eexists; reflexivity |]. change (many_cns (S n)) with (many_cn ++ many_cns n). rewrite <- app_assoc. cbn [s_read_section]. rewrite many_rr. cbv iota. unfold emit. cbn [andb]. match goal with |- context [s_read_section _ _ _ _ _ ?a ?b] => destruct (IH X a b) as (t' & hs' & ->) end. exists t', hs'. f_equal. lia.
Qed.
Lemma root_read X w : s_read_name (0 :: X) w = (1, Ok ([46], X)).
Proof. reflexivity. Qed.
Lemma many_ds k X : s_parse_wire_packet_rr false ([0; 0; 43; 0; 1; 0; 0; 0; 0; 3; 0; 0; 1; 8; 2] ++ chain 32 254 ++ X) (many k) = (1, Ok (RR_DS {| ds_name := [46]; ds_key_tag := 1; ds_alg := 8; ds_digest_type := 2; ds_digest := chain 32 254 |}, 0, X)).
Proof.
  unfold s_parse_wire_packet_rr. set (c := chain 32 254). cbn [app]. rewrite root_read. cbn [cbind]. unfold read_u16 at 1. cbn [cbind free]. unfold read_u16 at 1. cbn [cbind free]. change (negb (0 * 256 + 1 =? 1)) with false. cbv iota. unfold read_u32. cbn [cbind free]. unfold read_u16. cbn [cbind free].
  change (3 * 256 + 0) with 768. assert (LC : len (0 :: 1 :: 8 :: 2 :: c) = 768) by (rewrite !len_cons; unfold c; rewrite chain_len; reflexivity). change (0 :: 1 :: 8 :: 2 :: c ++ X) with ((0 :: 1 :: 8 :: 2 :: c) ++ X). assert (E : len ((0 :: 1 :: 8 :: 2 :: c) ++ X) <? 768 = false) by (apply N.ltb_ge; rewrite len_app; lia). rewrite E.
  rewrite <- LC. rewrite takeN_app_len, dropN_app_len. reflexivity.
Qed.
Lemma many_looks k hs : N.of_nat k < 65535 -> len (many k) = 796 + 14 * N.of_nat k /\ fst (s_handle_response false (many k) hs) = 2 + 1532 * N.of_nat k.
Proof.
  intros HK. split; [apply many_len |]. unfold s_handle_response. assert (H : s_read_header (many k) = (1, Ok (1 + N.of_nat k, 0, [0; 0; 43; 0; 1; 0; 0; 0; 0; 3; 0; 0; 1; 8; 2] ++ chain 32 254 ++ many_cns k))).
  { unfold s_read_header. unfold many at 1, many_head. rewrite <- !app_assoc. set (c := chain 32 254). cbn [app]. unfold read_u16 at 1. cbn [cbind free]. change (negb (0 * 256 + 0 =? TXID)) with false. cbv iota. unfold read_u16 at 1. cbn [cbind free]. change (N.land (128 * 256 + 32) 32768 =? 0) with false. change (negb (N.land (128 * 256 + 32) 31239 =? 0)) with false. change (N.land (128 * 256 + 32) 32 =? 0) with false. cbv iota.
    unfold read_u16 at 1. cbn [cbind free]. change (negb (0 * 256 + 1 =? 1)) with false. cbv iota. rewrite (be16_u16 (1 + N.of_nat k)) by lia. rewrite read_u16_app. cbn [cbind free]. destruct (N.eqb_spec (1 + N.of_nat k) 0); [lia |]. unfold read_u16 at 1. cbn [cbind free]. unfold read_u16 at 1. cbn [cbind free]. change (N.to_nat (0 * 256 + 1)) with 1%nat. cbn [s_skip_questions]. rewrite root_read. reflexivity. }
  rewrite H. replace (N.to_nat (1 + N.of_nat k)) with (S k) by lia. cbn [s_read_section]. rewrite many_ds. cbv iota. unfold emit. cbn [andb]. match goal with |- context [s_read_section false (many k) (fun _ => true) k ?r ?a ?b] => replace r with (many_cns k ++ []) by apply app_nil_r; destruct (many_section k k [] a b) as (t' & hs' & ->) end. cbn [s_read_section N.to_nat free fst]. lia.
Qed.
Lemma ptr_bytes o : o < 16384 -> is_bytes (ptr o).
Proof.
  intros H. assert (A : o / 256 < 64) by (apply N.div_lt_upper_bound; lia). assert (B : o mod 256 < 256) by (apply N.mod_lt; discriminate). unfold ptr. repeat constructor; unfold is_u8; [generalize dependent (o / 256); intros; lia | exact B].
Qed.
Lemma chain_bytes j : forall o, o + 2 * N.of_nat j < 16384 -> is_bytes (chain o j).
Proof.
  induction j as [| j IH]; intros o H; [apply is_bytes_ok; vm_compute; reflexivity |]. cbn [chain]. apply Forall_app. split; [apply ptr_bytes; lia | apply IH; lia].
Qed.
Lemma many_cns_bytes k : is_bytes (many_cns k).
Proof. unfold many_cns. induction k as [| k IH]; [constructor |]. cbn [repeat concat]. apply Forall_app. split; [apply is_bytes_ok; reflexivity | exact IH]. Qed.
Lemma many_head_bytes k : is_bytes (many_head k).
Proof.
  unfold many_head. apply Forall_app. split; [apply is_bytes_ok; reflexivity |]. apply Forall_app. split; [apply is_bytes_ok, be16_ok | apply is_bytes_ok; reflexivity].
Qed.
Lemma many_bytes k : is_bytes (many k).
Proof.
  assert (C : is_bytes (chain 32 254)) by (apply chain_bytes; lia). unfold many. revert C. generalize (chain 32 254). intros c C.
  apply Forall_app. split; [apply many_head_bytes |]. apply Forall_app. split; [exact C | apply many_cns_bytes].
Qed.
Lemma many_all k hs : N.of_nat k < 65535 -> is_bytes (many k) /\ len (many k) = 796 + 14 * N.of_nat k /\ fst (s_handle_response false (many k) hs) = 2 + 1532 * N.of_nat k.
Proof. intros H. split; [apply many_bytes | exact (many_looks k hs H)]. Qed.
(** The constant cannot be less. *)
Lemma smaller_refuted : ~ (forall dbg resp hs, is_bytes resp -> 7 * fst (s_handle_response dbg resp hs) <= (NAME_OK - 1) * len resp).
Proof.
  intros H. specialize (H false (many (N.to_nat 65534)) ([], []) (many_bytes _)). destruct (many_looks (N.to_nat 65534) ([], [])) as [L C]; [rewrite N2Nat.id; reflexivity |]. rewrite L, C, N2Nat.id in H. vm_compute in H. apply H. reflexivity.
Qed.
(** Nor much less for a message which fits its two octets of length. *)
Lemma fits : exists resp, is_bytes resp /\ len resp <= 65535 /\ forall hs, 108 * len resp < fst (s_handle_response false resp hs).
Proof.
  exists (many (N.to_nat 4624)). split; [apply many_bytes |]. split; [rewrite many_len, N2Nat.id; vm_compute; discriminate |]. intros hs. destruct (many_looks (N.to_nat 4624) hs) as [L C]; [rewrite N2Nat.id; reflexivity |]. rewrite L, C, N2Nat.id. reflexivity.
Qed.

(** A name for which most octets are looked at: 255 pointers, 255 octets, and a label of 255. *)
Definition worst_pkt : bytes := flat_map (fun i => ptr (N.of_nat (2 * S i))) (seq 0 254) ++ removelast text ++ 255 :: repeat 97 256.
Lemma worst_looks : s_read_name [192; 0] worst_pkt = (NAME_ANY, Err tt).
Proof. vm_compute. reflexivity. Qed.
Lemma best_looks : s_read_name lo_inp lo_pkt = (NAME_OK, Ok (lo_name, [])).
Proof. vm_compute. reflexivity. Qed.
(** Records of 11 octets. *)
Lemma small_records : parse_rr_stream true [0; 0; 16; 0; 1; 0; 0; 0; 0; 0; 0; 0; 0; 16; 0; 1; 0; 0; 0; 0; 0; 0] = Ok [RR_Txt {| tx_name := [46]; tx_data := [] |}; RR_Txt {| tx_name := [46]; tx_data := [] |}].
Proof. vm_compute. reflexivity. Qed.
