(** Proofs for C78: the size of a proof. *)
From Verif Require Import Base BaseP NameM NameSpec NameP WireM WireSpec WireP BitmapSpec BitmapP RRM SerM RecSpec RecP RecP2 RecP3 HeldP ValSpec QueryM QBufP QuerySpec QueryP QueryP2 QueryP3 QueryP4 LeftP.
From Coq Require Import Arith.
Local Open Scope N_scope.

(** ** Names *)
Lemma join_len sep ls : ls <> [] -> len (join sep ls) + 1 = fold_right (fun l a => 1 + len l + a) 0 ls.
Proof.
  induction ls as [| l [| l' ls] IH]; intros H; [congruence | cbn [join fold_right]; lia |]. change (join sep (l :: l' :: ls)) with (l ++ sep :: join sep (l' :: ls)).
  rewrite len_app, len_cons. cbn [fold_right] in *. specialize (IH ltac:(discriminate)). lia.
Qed.
Lemma write_name_len n : len (write_name n) = if bytes_eqb (lowercase n) root_name then 1 else len n + 1.
Proof.
  unfold write_name, write_name_calls. destruct (bytes_eqb (lowercase n) root_name); [reflexivity |].
  assert (L : len n = len (lowercase n)) by (unfold lowercase, len; rewrite map_length; reflexivity). rewrite L.
  rewrite <- (join_split dot (lowercase n)) at 2. rewrite join_len by apply split_on_nonnil.
  induction (split_on dot (lowercase n)) as [| l ls IH]; [reflexivity |]. cbn [flat_map concat app fold_right]. rewrite len_cons, len_app, IH. lia.
Qed.
(** A name takes at most 256 octets, and one if its encoding takes one. *)
Definition small (b n : list N) : Prop := (2 <= len b /\ len (write_name n) <= 256) \/ (len b = 1 /\ len (write_name n) = 1).
Lemma name_small pkt b n : NameIn pkt b n -> small b n.
Proof.
  intros (text & E & (ls & _ & _ & _ & L) & ->). unfold small.
  assert (W : len (write_name (lower (text_or_root text))) <= 256).
  { rewrite write_name_len. destruct (bytes_eqb _ _); [lia |]. unfold lower, len. rewrite map_length. lia. }
  inversion E; subst.
  - right. split; [reflexivity |]. vm_compute. reflexivity.
  - left. split; [| exact W]. rewrite len_cons, len_app. assert (X : inp <> []) by (eapply NameEnc_nonempty; eassumption). destruct inp; [congruence |]. rewrite len_cons. lia.
  - left. split; [| exact W]. rewrite !len_cons. lia.
Qed.

(** ** Bitmaps *)
Definition places (bl : list block) : list nat := flat_map (fun wb => seq (32 * N.to_nat (fst wb)) (length (snd wb))) bl.
Lemma places_len bl : len (places bl) + 2 * len bl = len (enc_blocks bl).
Proof.
  induction bl as [| [w b] bl IH]; [reflexivity |]. rewrite enc_blocks_len_cons. cbn [places flat_map fst snd]. change (flat_map _ bl) with (places bl).
  rewrite len_app, len_cons. unfold len at 1. rewrite seq_length. change (N.of_nat (length b)) with (len b). lia.
Qed.
Lemma octet_zero bl i : forall x, octet_at bl i x <> 0 -> x <> 0 \/ exists wb, In wb bl /\ covers wb i = true.
Proof.
  induction bl as [| wb bl IH]; intros x H; [left; exact H |]. cbn [octet_at] in H. apply IH in H as [H | (wb' & I & C)].
  - destruct (covers wb i) eqn:C; [right; exists wb; split; [left; reflexivity | exact C] | left; exact H].
  - right. exists wb'. split; [right; exact I | exact C].
Qed.
Lemma octet_skip bl i : forall x, Forall (fun wb => covers wb i = false) bl -> octet_at bl i x = x.
Proof. induction bl as [| wb bl IH]; intros x F; [reflexivity |]. inversion F as [| ? ? C F']; subst. cbn [octet_at]. rewrite C. apply IH. exact F'. Qed.
Lemma covers_spec wb i : covers wb i = true <-> (32 * N.to_nat (fst wb) <= i < 32 * N.to_nat (fst wb) + length (snd wb))%nat.
Proof. unfold covers. rewrite andb_true_iff, Nat.leb_le, Nat.ltb_lt. reflexivity. Qed.
Lemma in_places bl i : In i (places bl) <-> exists wb, In wb bl /\ covers wb i = true.
Proof.
  unfold places. rewrite in_flat_map. split; intros (wb & I & H); exists wb; (split; [exact I |]); [apply covers_spec | apply covers_spec in H]; rewrite in_seq in *; exact H.
Qed.
(** In the canonical form the last octet of each block is not zero. *)
Lemma canonical_last w bl : canonical_from w bl -> forall wb, In wb bl -> forall v, (1 <= length (snd wb) <= 32)%nat /\ w <= fst wb /\
  octet_at bl (32 * N.to_nat (fst wb) + length (snd wb) - 1) v <> 0.
Proof.
  induction 1 as [w | w w' b x t L1 L2 L3 NZ C IH]; intros wb I v; [destruct I |].
  assert (G := canonical_ge _ _ C). destruct I as [<- | I].
  - cbn [fst snd]. rewrite app_length. cbn [length]. split; [lia |]. split; [exact L1 |]. cbn [octet_at].
    replace (covers (w', b ++ [x]) _) with true by (symmetry; apply covers_spec; cbn [fst snd]; rewrite app_length; cbn [length]; lia).
    rewrite octet_skip.
    + cbn [fst snd]. rewrite app_nth2 by lia. replace (_ - _ - _)%nat with 0%nat by lia. exact NZ.
    + eapply Forall_impl; [| exact G]. intros [w1 b1] H. cbn [fst] in H. destruct (covers _ _) eqn:K; [| reflexivity]. apply covers_spec in K. cbn [fst snd] in K. lia.
  - cbn [octet_at]. destruct (IH wb I (if covers (w', b ++ [x]) (32 * N.to_nat (fst wb) + length (snd wb) - 1) then nth (32 * N.to_nat (fst wb) + length (snd wb) - 1 - 32 * N.to_nat (fst (w', b ++ [x]))) (snd (w', b ++ [x])) 0 else v)) as (H1 & H2 & H3).
    split; [exact H1 |]. split; [lia |]. exact H3.
Qed.
Lemma nodup_append {A} (a b : list A) : NoDup a -> NoDup b -> (forall x, In x a -> ~ In x b) -> NoDup (a ++ b).
Proof.
  induction 1 as [| x a N ND IH]; intros NB D; [exact NB |]. cbn. constructor.
  - intros H. apply in_app_or in H as [H | H]; [exact (N H) | exact (D x (or_introl eq_refl) H)].
  - apply IH; [exact NB |]. intros y Hy. apply D. right. exact Hy.
Qed.
Lemma places_nodup w bl : canonical_from w bl -> NoDup (places bl) /\ Forall (fun i => (32 * N.to_nat w <= i)%nat) (places bl).
Proof.
  induction 1 as [w | w w' b x t L1 L2 L3 NZ C (ND & F)]; [split; constructor |]. cbn [places flat_map fst snd]. change (flat_map _ t) with (places t). rewrite app_length. cbn [length]. split.
  - apply nodup_append; [apply seq_NoDup | exact ND |]. intros i I1 I2. apply in_seq in I1. rewrite Forall_forall in F. apply F in I2. lia.
  - apply Forall_app. split; [apply Forall_forall; intros i I; apply in_seq in I; lia |]. eapply Forall_impl; [| exact F]. cbn beta. intros i H. lia.
Qed.
Lemma bitmap_small bits mask : BitmapEnc bits mask -> len (write_nsec_types_bitmap mask) <= 3 * len bits.
Proof.
  intros (bl & -> & _ & L & O). destruct (write_bitmap_canonical mask L) as (bl' & C & -> & O').
  destruct (places_nodup _ _ C) as [ND _].
  assert (I : incl (places bl') (places bl)).
  { intros i Hi. apply in_places in Hi as (wb & I & K). apply covers_spec in K. destruct (canonical_last _ _ C wb I 0) as (H1 & _ & H3).
    assert (FT : block_fits wb) by (apply canonical_fits in C; rewrite Forall_forall in C; apply C; exact I). unfold block_fits in FT.
    rewrite <- O' in H3 by lia. rewrite O in H3 by lia. apply octet_zero in H3 as [H3 | (wb2 & I2 & K2)]; [congruence |].
    apply in_places. exists wb2. split; [exact I2 |]. apply covers_spec in K2. apply covers_spec. lia. }
  pose proof (NoDup_incl_length ND I) as LE. rewrite <- !places_len.
  assert (X : len bl' <= len (places bl')).
  { assert (F : Forall (fun wb => (1 <= length (snd wb))%nat) bl') by (apply Forall_forall; intros wb Hw; apply (canonical_last _ _ C wb Hw 0)).
    clear -F. induction F as [| [w b] bl H F IH]; [reflexivity |]. cbn [places flat_map fst snd] in *. change (flat_map _ bl) with (places bl). rewrite len_app, len_cons. unfold len at 2. rewrite seq_length. lia. }
  unfold len in *. lia.
Qed.

(** ** Records *)
Lemma txt_loop_len f : forall d, len (txt_write_loop f d) <= 2 * len d.
Proof.
  induction f as [| f IH]; intros d; [cbn; lia |]. cbn [txt_write_loop]. destruct d as [| x d]; [cbn; lia |]. cbn [is_nil].
  set (sp := N.min 255 (len (x :: d))). assert (S1 : 1 <= sp) by (subst sp; rewrite len_cons; lia). assert (S2 : sp <= len (x :: d)) by (subst sp; lia).
  rewrite !len_app. specialize (IH (dropN sp (x :: d))).
  assert (L1 : len (takeN sp (x :: d)) = sp) by (unfold takeN, len in *; rewrite firstn_length; lia).
  assert (L2 : len (dropN sp (x :: d)) = len (x :: d) - sp) by (unfold dropN, len in *; rewrite skipn_length; lia).
  rewrite L1. rewrite L2 in IH. assert (X : len (if is_nil (dropN sp (x :: d)) then [] else [N.min 255 (len (dropN sp (x :: d)))]) <= 1) by (destruct (is_nil _); cbn; lia). lia.
Qed.
Lemma be16_len n : len (be16 n) = 2.
Proof. reflexivity. Qed.
Lemma be32_len n : len (be32 n) = 4.
Proof. reflexivity. Qed.
Lemma u16_len n : len (u16 n) = 2.
Proof. reflexivity. Qed.
Lemma u32_len n : len (u32 n) = 4.
Proof. reflexivity. Qed.
Lemma strs_len (strs : list (list N)) : len (concat strs) <= len (flat_map (fun s => length_of s :: s) strs).
Proof. induction strs as [| s t IH]; [reflexivity |]. cbn [concat flat_map app]. rewrite len_cons, !len_app. lia. Qed.
Lemma rdata_owner pkt lax ty o r data : RData (NameIn pkt) lax ty o r data -> rr_name r = o.
Proof. destruct 1; reflexivity. Qed.
Lemma record_small pkt lax rec r ttl : RecordEnc (NameIn pkt) lax rec r ttl -> forall t, 7 * len (write_rr r t) <= 261 * len rec.
Proof.
  destruct 1 as [nb owner ty ttl r data N1 D]. intros t. assert (O := rdata_owner _ _ _ _ _ _ D). apply name_small in N1. unfold write_rr. rewrite O.
  rewrite !len_app, !be16_len, be32_len, !u16_len, u32_len. clear O. unfold small in N1.
  destruct D; cbn [write_data]; unfold a_write, aaaa_write, name_write, txt_write, tlsa_write, dnskey_write, ds_write, rrsig_write, nsec_write, nsec3_write;
    cbn [a_addr a6_addr nr_server cn_canonical dn_delegation tx_data tl_usage tl_selector tl_data_ty tl_data dk_flags dk_protocol dk_alg dk_pubkey ds_key_tag ds_alg ds_digest_type ds_digest
         rs_ty rs_alg rs_labels rs_orig_ttl rs_expiration rs_inception rs_key_tag rs_key_name rs_signature ns_next ns_types n3_algo n3_flags n3_iters n3_salt n3_next_hash n3_types];
    repeat (rewrite ?len_app, ?len_cons, ?be16_len, ?be32_len, ?u16_len, ?u32_len);
    repeat match goal with H : NameIn _ _ _ |- _ => apply name_small in H; unfold small in H end;
    repeat match goal with H : BitmapEnc _ _ |- _ => apply bitmap_small in H end;
    try (change (len []) with 0); try lia.
  pose proof (strs_len strs). pose proof (txt_loop_len (length (concat strs)) (concat strs)). lia.
Qed.
Lemma records_small lax m b l : Records lax m b l -> 7 * len (write_all l) <= 261 * len b.
Proof.
  induction 1 as [| rec r ttl b l R Rs IH]; [cbn; lia |]. rewrite len_app. change (write_all ((r, ttl) :: l)) with (write_rr r ttl ++ write_all l). rewrite len_app.
  pose proof (record_small _ _ _ _ _ R ttl). lia.
Qed.
Lemma filter_small f l : len (write_all (filter f l)) <= len (write_all l).
Proof.
  induction l as [| [r t] l IH]; [cbn; lia |]. change (write_all ((r, t) :: l)) with (write_rr r t ++ write_all l). rewrite len_app. cbn [filter].
  destruct (f (r, t)); [change (write_all ((r, t) :: filter f l)) with (write_rr r t ++ write_all (filter f l)); rewrite len_app |]; lia.
Qed.
Lemma name_in_len m nb n : NameIn m nb n -> 1 <= len nb.
Proof. intros H. apply name_small in H. unfold small in H. lia. Qed.
Lemma response_small lax m items : Response lax m items -> 7 * len (write_all items) <= 261 * (len m - 17).
Proof.
  intros (f & ans & auth & [f0 ex nb n qty qcl ab ans0 ub auth0 rest E Nn R1 R2] & _ & _ & _ & _ & _ & _ & ->).
  apply records_small in R1. apply records_small in R2. apply name_in_len in Nn. apply (f_equal (@len N)) in E. rewrite !len_app, !u16_len in E.
  unfold contribution. rewrite write_all_app, len_app. pose proof (filter_small (fun rt => denial_record (fst rt)) auth0). lia.
Qed.
Lemma left_small lax m items : Left lax m items -> 7 * len (write_all items) <= 261 * (len m - 17).
Proof.
  intros (f & an & au & ex & nb & n & qty & qcl & b & l & tail & E & Nn & _ & _ & _ & _ & _ & _ & R & _ & _ & ->).
  apply records_small in R. apply name_in_len in Nn. apply (f_equal (@len N)) in E. rewrite !len_app, !u16_len in E.
  unfold contribution. rewrite write_all_app, len_app. pose proof (filter_small (fun rt => denial_record (fst rt)) (skipn an l)).
  rewrite <- (firstn_skipn an l), write_all_app, len_app in R. lia.
Qed.

(** ** Proofs *)
Lemma buffer_small dbg n ty b0 q0 tr b : builder_new n ty = Ok (b0, q0) -> Calls dbg b0 tr b -> Forall (fun c => is_bytes (fst c)) tr ->
  7 * length_of (pb_proof b) <= 261 * fold_right (fun c a => (length_of (fst c) - 17) + a) 0 tr.
Proof.
  intros E C B. unfold builder_new in E. apply obind_ok in E as (q & _ & E). injection E as <- <-.
  destruct (calls_items _ _ _ C B) as (its & R & -> & _). change (length_of (write_all (concat its))) with (len (write_all (concat its))). clear C B.
  induction R as [| c i tr its R F IH]; [cbn; lia |]. cbn [concat fold_right]. rewrite write_all_app, len_app. change (length_of (fst c)) with (len (fst c)).
  assert (X : 7 * len (write_all i) <= 261 * (len (fst c) - 17)); [| lia].
  unfold call_items in R. destruct (is_ok (snd c)); [apply (response_small _ _ _ R) |]. destruct R as [R | ->]; [apply (left_small _ _ _ R) | cbn; lia].
Qed.
Lemma built_small dbg fuel n ty segs proof ttl sent : name_try_from n = Some n -> ty < 65536 -> is_bytes (concat segs) ->
  build_proof dbg fuel n ty segs = (Ok (proof, ttl), sent) -> length_of proof <= 24428854.
Proof.
  intros V T B H. destruct (build_proof_sound _ _ _ _ _ _ _ _ V T B H) as (ms & its & rest & E & L & R & -> & _). change (length_of _) with (len (write_all (concat its))).
  assert (F : Forall (fun m => len m <= 65535) ms).
  { rewrite E in B. apply is_bytes_app in B as [B _]. clear -B. induction ms as [| m ms IH]; [constructor |]. cbn [flat_map] in B. apply is_bytes_app in B as [B1 B2].
    constructor; [| apply IH; exact B2]. unfold frame in B1. apply is_bytes_app in B1 as [B1 _]. unfold u16 in B1. apply Forall_inv in B1. unfold is_u8, length_of in B1. unfold len. set (x := N.of_nat (length m)) in *. pose proof (N.div_mod x 256 ltac:(discriminate)). pose proof (N.mod_lt x 256 ltac:(discriminate)). lia. }
  assert (X : 7 * len (write_all (concat its)) <= 261 * (65518 * len ms)).
  { clear -R F. induction R as [| m i ms its R Rs IH]; [cbn; lia |]. inversion F as [| ? ? F1 F2]; subst. cbn [concat]. rewrite write_all_app, len_app, len_cons.
    apply response_small in R. specialize (IH F2). lia. }
  unfold len in *. lia.
Qed.
