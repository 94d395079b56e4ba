(** Proofs about type bitmaps and type masks (C11, C12). *)
From Verif Require Import Base NameM BaseP WireM RRM BitmapSpec.
From Coq Require Import Arith.
Local Open Scope N_scope.

Definition splice_block (res : bytes) (wb : block) : bytes :=
  splice res (N.to_nat (fst wb * 32)) (snd wb).

Lemma read_bitmap_sound fuel : forall inp res m, read_bitmap_loop fuel inp res = Ok m ->
  exists bl, inp = enc_blocks bl /\ Forall block_fits bl /\ m = fold_left splice_block bl res.
Proof.
  induction fuel as [|f IH]; intros inp res m H.
  - destruct inp as [|w [|l rest]]; cbn in H; try discriminate. injection H as <-. exists []. auto.
  - destruct inp as [|w [|l rest]]; cbn [read_bitmap_loop] in H; try discriminate.
    + injection H as <-. exists []. auto.
    + destruct (len rest <? l) eqn:E1; [discriminate|]. apply N.ltb_ge in E1.
      destruct (8192 <? w * 32 + l) eqn:E2; [discriminate|]. apply N.ltb_ge in E2.
      apply IH in H as (bl & H1 & H2 & ->). exists ((w, takeN l rest) :: bl). repeat split.
      * cbn [enc_blocks flat_map fst snd]. fold (len (takeN l rest)). rewrite len_takeN by auto. cbn [app].
        f_equal. f_equal. rewrite <- (takeN_dropN l rest) at 1. f_equal. exact H1.
      * constructor; auto. unfold block_fits. cbn [fst snd]. fold (len (takeN l rest)). rewrite len_takeN by auto. lia.
Qed.

Lemma read_bitmap_complete bl : forall fuel res, (List.length (enc_blocks bl) <= fuel)%nat -> Forall block_fits bl ->
  read_bitmap_loop fuel (enc_blocks bl) res = Ok (fold_left splice_block bl res).
Proof.
  induction bl as [|[w b] bl IH]; intros fuel res Hf HF; [destruct fuel; reflexivity|].
  inversion HF; subst. cbn [enc_blocks flat_map fst snd] in *. fold (len b) in *.
  change (flat_map _ bl) with (enc_blocks bl) in *. cbn [app] in *.
  destruct fuel as [|f]; [cbn in Hf; lia|]. cbn [read_bitmap_loop].
  replace (len (b ++ enc_blocks bl) <? len b) with false by (symmetry; apply N.ltb_ge; rewrite len_app; lia).
  unfold block_fits in H1. cbn [fst snd] in H1. fold (len b) in H1.
  replace (8192 <? w * 32 + len b) with false by (symmetry; apply N.ltb_ge; lia).
  rewrite takeN_app_len, dropN_app_len. rewrite IH; auto.
  cbn [List.length] in Hf. rewrite app_length in Hf. lia.
Qed.

Lemma splice_length res off data : (off + List.length data <= List.length res)%nat ->
  List.length (splice res off data) = List.length res.
Proof. intros. unfold splice. rewrite !app_length, firstn_length, skipn_length. lia. Qed.

Lemma nth_skipn' {A} n (l : list A) i d : nth i (skipn n l) d = nth (n + i) l d.
Proof.
  revert l. induction n; intros l; [reflexivity|]. destruct l; [destruct i; reflexivity|]. cbn. apply IHn.
Qed.
Lemma nth_firstn' {A} n (l : list A) i d : (i < n)%nat -> nth i (firstn n l) d = nth i l d.
Proof.
  revert l i. induction n; intros l i H; [lia|]. destruct l; [destruct i; reflexivity|].
  destruct i; [reflexivity|]. cbn. apply IHn. lia.
Qed.

Lemma splice_nth res off data i : (off + List.length data <= List.length res)%nat -> 
  nth i (splice res off data) 0 =
  if Nat.leb off i && Nat.ltb i (off + List.length data) then nth (i - off) data 0 else nth i res 0.
Proof.
  intros H. unfold splice.
  assert (Hf : List.length (firstn off res) = off) by (rewrite firstn_length; lia).
  destruct (Nat.leb_spec off i) as [H1|H1]; cbn [andb].
  - rewrite app_nth2 by lia. rewrite Hf. destruct (Nat.ltb_spec i (off + List.length data)) as [H2|H2].
    + rewrite app_nth1 by lia. reflexivity.
    + rewrite app_nth2 by lia. rewrite nth_skipn'. f_equal. lia.
  - rewrite app_nth1 by lia. apply nth_firstn'. auto.
Qed.

Lemma fold_splice_nth bl : forall res i, List.length res = N.to_nat 8192 -> Forall block_fits bl ->
  List.length (fold_left splice_block bl res) = N.to_nat 8192 /\
  nth i (fold_left splice_block bl res) 0 = octet_at bl i (nth i res 0).
Proof.
  induction bl as [|[w b] bl IH]; intros res i HL HF; [split; [exact HL|reflexivity]|].
  inversion HF; subst. unfold block_fits in H1. cbn [fst snd] in H1.
  cbn [fold_left octet_at]. unfold splice_block at 2 4. cbn [fst snd].
  assert (Hfit : (N.to_nat (w * 32) + List.length b <= List.length res)%nat) by lia.
  destruct (IH (splice res (N.to_nat (w * 32)) b) i) as [IH1 IH2]; auto.
  { rewrite splice_length; auto. }
  split; auto. rewrite IH2, splice_nth by auto. unfold covers. cbn [fst snd].
  replace (N.to_nat (w * 32)) with (32 * N.to_nat w)%nat by lia. reflexivity.
Qed.

Lemma zero_mask_nth i : nth i zero_mask 0 = 0.
Proof. apply nth_repeat. Qed.
Lemma zero_mask_length : List.length zero_mask = N.to_nat 8192.
Proof. apply repeat_length. Qed.

Lemma nth_ext' (a b : bytes) n : List.length a = n -> List.length b = n ->
  (forall i, (i < n)%nat -> nth i a 0 = nth i b 0) -> a = b.
Proof. intros H1 H2 H. apply nth_ext with 0 0; [lia|]. intros. apply H. lia. Qed.

Lemma read_bitmap_spec inp m : read_nsec_types_bitmap inp = Ok m <-> BitmapEnc inp m.
Proof.
  unfold read_nsec_types_bitmap. split.
  - intros H. apply read_bitmap_sound in H as (bl & H1 & H2 & ->). exists bl. repeat split; auto.
    + apply (fold_splice_nth bl _ 0%nat zero_mask_length H2).
    + intros i Hi. destruct (fold_splice_nth bl zero_mask i zero_mask_length H2) as [_ ->].
      rewrite zero_mask_nth. reflexivity.
  - intros (bl & -> & H2 & H3 & H4). rewrite read_bitmap_complete by auto. f_equal.
    destruct (fold_splice_nth bl zero_mask 0%nat zero_mask_length H2) as [HL _].
    apply nth_ext' with (N.to_nat 8192); auto. intros i Hi.
    destruct (fold_splice_nth bl zero_mask i zero_mask_length H2) as [_ ->].
    rewrite zero_mask_nth. symmetry. auto.
Qed.

(** When the reader panics: some block, after blocks which fit, reaches beyond the mask. *)
Lemma read_bitmap_outcome fuel : forall inp res, (List.length inp <= fuel)%nat ->
  read_bitmap_loop fuel inp res <> Loop /\
  (read_bitmap_loop fuel inp res = Panic <->
   exists bl wb rest, inp = enc_blocks (bl ++ [wb]) ++ rest /\ Forall block_fits bl /\ ~ block_fits wb).
Proof.
  induction fuel as [|f IH]; intros inp res Hf.
  - destruct inp; [|cbn in Hf; lia]. cbn. split; [discriminate|]. split; [discriminate|].
    intros (bl & wb & rest & H & _). destruct bl as [|[? ?] ?], wb; discriminate.
  - destruct inp as [|w [|l rest]]; cbn [read_bitmap_loop].
    + split; [discriminate|]. split; [discriminate|].
      intros (bl & wb & rest & H & _). destruct bl as [|[? ?] ?], wb; discriminate.
    + split; [discriminate|]. split; [discriminate|].
      intros (bl & wb & rest & H & _). destruct bl as [|[? ?] ?], wb; discriminate.
    + destruct (len rest <? l) eqn:E1.
      * apply N.ltb_lt in E1. split; [discriminate|]. split; [discriminate|].
        intros (bl & [w1 b1] & rest' & H & _).
        destruct bl as [|[w0 b0] bl]; cbn in H; injection H as -> -> ->;
          rewrite ?app_nil_r, !len_app in E1; unfold len in E1; lia.
      * apply N.ltb_ge in E1. destruct (8192 <? w * 32 + l) eqn:E2.
        -- apply N.ltb_lt in E2. split; [discriminate|]. split; [intros _|reflexivity].
           exists [], (w, takeN l rest), (dropN l rest). repeat split; auto.
           ++ cbn [enc_blocks flat_map fst snd app]. fold (len (takeN l rest)). rewrite len_takeN by auto.
              rewrite app_nil_r. cbn [app]. rewrite takeN_dropN. reflexivity.
           ++ unfold block_fits. cbn [fst snd]. fold (len (takeN l rest)). rewrite len_takeN by auto. lia.
        -- apply N.ltb_ge in E2.
           destruct (IH (dropN l rest) (splice res (N.to_nat (w * 32)) (takeN l rest))) as [IH1 IH2].
           { cbn [List.length] in Hf. unfold dropN. rewrite skipn_length. lia. }
           split; auto. rewrite IH2. split.
           ++ intros (bl & wb & r & H1 & H2 & H3). exists ((w, takeN l rest) :: bl), wb, r. repeat split; auto.
              ** cbn [enc_blocks flat_map fst snd app]. fold (len (takeN l rest)). rewrite len_takeN by auto.
                 cbn [app]. rewrite <- app_assoc. f_equal. f_equal. rewrite <- (takeN_dropN l rest) at 1.
                 f_equal. exact H1.
              ** constructor; auto. unfold block_fits. cbn [fst snd]. fold (len (takeN l rest)).
                 rewrite len_takeN by auto. lia.
           ++ intros (bl & wb & r & H1 & H2 & H3). destruct bl as [|[w0 b0] bl].
              ** exfalso. destruct wb as [w1 b1]. cbn in H1. injection H1 as -> -> ->.
                 apply H3. unfold block_fits. cbn [fst snd]. lia.
              ** exists bl, wb, r. cbn in H1. injection H1 as -> -> ->. inversion H2; subst.
                 repeat split; auto. rewrite <- app_assoc. fold (len b0). rewrite dropN_app_len. reflexivity.
Qed.

(** ** Writing *)

Lemma rposition_split l i : rposition_nz l = Some i ->
  exists b x, firstn (i + 1) l = b ++ [x] /\ List.length b = i /\ x <> 0 /\ l = b ++ [x] ++ repeat 0 (List.length l - (i + 1)) /\ (i < List.length l)%nat.
Proof.
  revert i. induction l as [|y l IH]; cbn; intros i H; [discriminate|].
  destruct (rposition_nz l) as [j|] eqn:E.
  - injection H as <-. destruct (IH j eq_refl) as (b & x & H1 & H2 & H3 & H4 & H5).
    exists (y :: b), x. cbn [Nat.add firstn app List.length]. rewrite H1. repeat split; auto; try lia.
    f_equal. exact H4.
  - destruct (y =? 0) eqn:Ey; [discriminate|]. injection H as <-. apply N.eqb_neq in Ey.
    exists [], y. cbn. repeat split; auto; [|lia]. rewrite Nat.sub_0_r. f_equal.
    clear - E. induction l as [|z l IH]; [reflexivity|]. cbn in *.
    destruct (rposition_nz l); [discriminate|]. destruct (z =? 0) eqn:Ez; [|discriminate].
    apply N.eqb_eq in Ez. subst. f_equal. auto.
Qed.
Lemma rposition_none l : rposition_nz l = None <-> l = repeat 0 (List.length l).
Proof.
  split.
  - induction l as [|z l IH]; [reflexivity|]. cbn. destruct (rposition_nz l); [discriminate|].
    destruct (z =? 0) eqn:Ez; [|discriminate]. apply N.eqb_eq in Ez. subst. intros _. f_equal. auto.
  - intros H. rewrite H. clear H. induction (List.length l); [reflexivity|]. cbn. rewrite IHn. reflexivity.
Qed.
Lemma rposition_app b x k : x <> 0 -> rposition_nz (b ++ [x] ++ repeat 0 k) = Some (List.length b).
Proof.
  intros Hx. induction b as [|y b IH].
  - cbn. assert (E : rposition_nz (repeat 0 k) = None).
    { apply rposition_none. rewrite repeat_length. reflexivity. }
    rewrite E. destruct (x =? 0) eqn:Ex; [apply N.eqb_eq in Ex; congruence|reflexivity].
  - change ((y :: b) ++ [x] ++ repeat 0 k) with (y :: (b ++ [x] ++ repeat 0 k)).
    cbn [rposition_nz]. rewrite IH. reflexivity.
Qed.

(** The blocks written for a list of 32-octet windows. *)
Fixpoint blocks_from (idx : N) (cs : list bytes) : list block :=
  match cs with
  | [] => []
  | c :: t => (match rposition_nz c with Some i => [(idx, firstn (i + 1) c)] | None => [] end)
              ++ blocks_from (idx + 1) t
  end.

Lemma all_zero_iff c : List.length c = 32%nat -> (bytes_eqb c (repeat 0 32) = true <-> rposition_nz c = None).
Proof. intros H. rewrite bytes_eqb_eq, rposition_none, H. tauto. Qed.

Lemma enc_blocks_app a b : enc_blocks (a ++ b) = enc_blocks a ++ enc_blocks b.
Proof. apply flat_map_app. Qed.

Lemma write_blocks_enc cs : forall idx, Forall (fun c => List.length c = 32%nat) cs -> idx + len cs <= 256 ->
  write_blocks idx cs = enc_blocks (blocks_from idx cs).
Proof.
  induction cs as [|c cs IH]; intros idx HF Hl; [reflexivity|]. inversion HF; subst. rewrite len_cons in Hl.
  cbn [write_blocks blocks_from]. rewrite enc_blocks_app, <- IH by (auto; lia). f_equal.
  destruct (bytes_eqb c (repeat 0 32)) eqn:E.
  - rewrite all_zero_iff in E by auto. rewrite E. reflexivity.
  - unfold last_nz. destruct (rposition_nz c) as [i|] eqn:Er.
    + destruct (rposition_split _ _ Er) as (b & x & H3 & H4 & H5 & H6 & H7).
      rewrite !as_u8_small by lia. cbn [enc_blocks flat_map fst snd]. rewrite app_nil_r. cbn [app]. f_equal. f_equal.
      rewrite firstn_length. lia.
    + apply all_zero_iff in Er; [congruence|auto].
Qed.

Lemma blocks_from_canonical cs : forall idx, Forall (fun c => List.length c = 32%nat) cs -> idx + len cs <= 256 ->
  forall w, w <= idx -> canonical_from w (blocks_from idx cs).
Proof.
  induction cs as [|c cs IH]; intros idx HF Hl w Hw; [constructor|]. inversion HF; subst. rewrite len_cons in Hl.
  cbn [blocks_from]. destruct (rposition_nz c) as [i|] eqn:Er; cbn [app].
  - destruct (rposition_split _ _ Er) as (b & x & H3 & H4 & H5 & H6 & H7). rewrite H3.
    constructor; auto; try lia. apply IH; auto; lia.
  - apply IH; auto; lia.
Qed.

Lemma canonical_fits w bl : canonical_from w bl -> Forall block_fits bl.
Proof.
  induction 1; constructor; auto. unfold block_fits. cbn [fst snd]. rewrite app_length. cbn [List.length]. lia.
Qed.

Lemma octet_at_skip bl i init : (forall wb, In wb bl -> covers wb i = false) -> octet_at bl i init = init.
Proof.
  revert init. induction bl; intros init H; [reflexivity|]. cbn. rewrite H by (left; auto).
  apply IHbl. intros; apply H; right; auto.
Qed.

Lemma canonical_ge w bl : canonical_from w bl -> Forall (fun wb => w <= fst wb) bl.
Proof.
  intros H. induction H; constructor; auto. eapply Forall_impl; [|exact IHcanonical_from]. cbn; intros; lia.
Qed.
Lemma covers_before w bl i : canonical_from w bl -> (i < 32 * N.to_nat w)%nat -> forall wb, In wb bl -> covers wb i = false.
Proof.
  intros H Hi wb Hin. apply canonical_ge in H. rewrite Forall_forall in H. apply H in Hin.
  unfold covers. destruct (Nat.leb_spec (32 * N.to_nat (fst wb)) i); [lia|reflexivity].
Qed.

Lemma nth_repeat0 i k : nth i (repeat 0 k) 0 = 0.
Proof. apply nth_repeat. Qed.

Lemma blocks_from_octet cs : forall idx i, Forall (fun c => List.length c = 32%nat) cs -> idx + len cs <= 256 ->
  (32 * N.to_nat idx <= i)%nat ->
  octet_at (blocks_from idx cs) i 0 = nth (i - 32 * N.to_nat idx) (concat cs) 0.
Proof.
  induction cs as [|c cs IH]; intros idx i HF Hl Hi; [cbn; destruct (i - _)%nat; reflexivity|].
  inversion HF; subst. rewrite len_cons in Hl. cbn [blocks_from concat].
  assert (Hc : canonical_from (idx + 1) (blocks_from (idx + 1) cs)) by (apply blocks_from_canonical; auto; lia).
  assert (Hlen : (32 * N.to_nat (idx + 1) = 32 * N.to_nat idx + 32)%nat) by lia.
  assert (Hcov : forall b, (List.length b <= 32)%nat -> (32 * N.to_nat idx + 32 <= i)%nat -> covers (idx, b) i = false).
  { intros. unfold covers. cbn [fst snd].
    destruct (Nat.ltb_spec i (32 * N.to_nat idx + List.length b)); [lia|apply andb_false_r]. }
  destruct (Nat.lt_ge_cases i (32 * N.to_nat idx + 32)) as [Hlt|Hge].
  - rewrite app_nth1 by lia.
    assert (Hsk : forall init, octet_at (blocks_from (idx + 1) cs) i init = init).
    { intros init. apply octet_at_skip. apply (covers_before _ _ _ Hc). lia. }
    destruct (rposition_nz c) as [j|] eqn:Er; cbn [app octet_at]; rewrite Hsk.
    + destruct (rposition_split _ _ Er) as (b & x & H3 & H4 & H5 & H6 & H7).
      unfold covers. cbn [fst snd]. destruct (Nat.leb_spec (32 * N.to_nat idx) i); [|lia]. cbn [andb].
      rewrite firstn_length. destruct (Nat.ltb_spec i (32 * N.to_nat idx + Nat.min (j + 1) (List.length c))).
      * apply nth_firstn'. lia.
      * rewrite H6, app_assoc, app_nth2; [symmetry; apply nth_repeat0|]. rewrite app_length. cbn [List.length]. lia.
    + apply rposition_none in Er. rewrite Er. symmetry. apply nth_repeat0.
  - rewrite app_nth2 by lia.
    replace (i - 32 * N.to_nat idx - List.length c)%nat with (i - 32 * N.to_nat (idx + 1))%nat by lia.
    rewrite <- IH by (auto; lia).
    destruct (rposition_nz c) as [j|] eqn:Er; cbn [app octet_at]; [|reflexivity].
    rewrite Hcov; auto. rewrite firstn_length. lia.
Qed.

Lemma chunks_aux_concat {A} n (cs : list (list A)) : (0 < n)%nat -> Forall (fun c => List.length c = n) cs ->
  forall fuel, (List.length (concat cs) <= fuel)%nat -> chunks_aux fuel n (concat cs) = cs.
Proof.
  intros Hn. induction 1 as [|c cs Hc HF IH]; intros fuel Hf; [destruct fuel; reflexivity|].
  cbn [concat] in *. rewrite app_length in Hf. destruct fuel as [|f]; [lia|]. cbn [chunks_aux].
  destruct (c ++ concat cs) eqn:E; [apply app_eq_nil in E as [-> _]; cbn in Hc; lia|]. rewrite <- E.
  rewrite firstn_app, skipn_app, Hc, Nat.sub_diag, firstn_O, skipn_O, app_nil_r.
  rewrite <- Hc at 1. rewrite firstn_all, <- Hc, skipn_all, app_nil_l. f_equal. rewrite Hc. apply IH. lia.
Qed.
Lemma chunks_concat {A} n (cs : list (list A)) : (0 < n)%nat -> Forall (fun c => List.length c = n) cs ->
  chunks n (concat cs) = cs.
Proof. intros. apply chunks_aux_concat; auto. Qed.

(** Any list whose length is a multiple of [n] is the concatenation of its chunks. *)
Lemma chunks_exact {A} n (k : nat) : (0 < n)%nat -> forall l : list A, (List.length l = k * n)%nat ->
  exists cs : list (list A), l = concat cs /\ List.length cs = k /\ Forall (fun c => List.length c = n) cs.
Proof.
  intros Hn. induction k; intros l H.
  - destruct l; [|cbn in H; lia]. exists []. auto.
  - destruct (IHk (skipn n l)) as (cs & H1 & H2 & H3). { rewrite skipn_length. lia. }
    exists (firstn n l :: cs). cbn [concat List.length]. rewrite <- H1, firstn_skipn. repeat split; auto.
    constructor; auto. rewrite firstn_length. cbn in H. lia.
Qed.

Lemma mask_chunks (m : bytes) : List.length m = N.to_nat 8192 ->
  exists cs, m = concat cs /\ List.length cs = 256%nat /\ Forall (fun c => List.length c = 32%nat) cs.
Proof. intros H. apply chunks_exact; [lia|]. rewrite H. reflexivity. Qed.

Lemma write_bitmap_canonical m : List.length m = N.to_nat 8192 ->
  exists bl, canonical_from 0 bl /\ write_nsec_types_bitmap m = enc_blocks bl /\
    forall i, (i < N.to_nat 8192)%nat -> nth i m 0 = octet_at bl i 0.
Proof.
  intros H. destruct (mask_chunks m H) as (cs & -> & H1 & H2). exists (blocks_from 0 cs).
  assert (Hl : 0 + len cs <= 256) by (unfold len; lia).
  split; [apply blocks_from_canonical; auto; lia|]. split.
  - unfold write_nsec_types_bitmap. rewrite chunks_concat by (auto; lia). apply write_blocks_enc; auto.
  - intros i Hi. rewrite blocks_from_octet by (auto; lia). f_equal. lia.
Qed.

Lemma write_bitmap_enc m : List.length m = N.to_nat 8192 -> BitmapEnc (write_nsec_types_bitmap m) m.
Proof.
  intros H. destruct (write_bitmap_canonical m H) as (bl & H1 & H2 & H3). exists bl. repeat split; auto.
  eapply canonical_fits; eauto.
Qed.

Lemma bitmap_roundtrip m : List.length m = N.to_nat 8192 ->
  read_nsec_types_bitmap (write_nsec_types_bitmap m) = Ok m.
Proof. intros. apply read_bitmap_spec. apply write_bitmap_enc. auto. Qed.

(** Announced length. *)
Lemma enc_blocks_len_cons w b t : len (enc_blocks ((w, b) :: t)) = 2 + len b + len (enc_blocks t).
Proof. cbn [enc_blocks flat_map fst snd]. change (flat_map _ t) with (enc_blocks t). rewrite len_app, !len_cons. lia. Qed.

Lemma bitmap_len_loop cs : forall idx acc, Forall (fun c => List.length c = 32%nat) cs ->
  acc + 34 * len cs < 65536 ->
  fold_left (fun acc flags =>
    if bytes_eqb flags (repeat 0 32) then acc
    else as_u16 (acc + 3 + N.of_nat (last_nz flags))) cs acc = acc + len (enc_blocks (blocks_from idx cs))
  /\ len (enc_blocks (blocks_from idx cs)) <= 34 * len cs.
Proof.
  induction cs as [|c cs IH]; intros idx acc HF Hl; [cbn; split; lia|]. inversion HF; subst. rewrite len_cons in *.
  cbn [fold_left blocks_from]. rewrite enc_blocks_app, len_app.
  destruct (bytes_eqb c (repeat 0 32)) eqn:E.
  - rewrite all_zero_iff in E by auto. rewrite E. change (len (enc_blocks [])) with 0.
    destruct (IH (idx + 1) acc) as [-> ?]; auto; [lia|]. split; lia.
  - destruct (rposition_nz c) as [i|] eqn:Er.
    2:{ apply all_zero_iff in Er; [congruence|auto]. }
    destruct (rposition_split _ _ Er) as (b & x & H3 & H4 & H5 & H6 & H7).
    replace (last_nz c) with i by (unfold last_nz; rewrite Er; reflexivity).
    rewrite as_u16_small by lia.
    destruct (IH (idx + 1) (acc + 3 + N.of_nat i)) as [IH1 IH2]; auto; [lia|]. rewrite IH1.
    rewrite H3, enc_blocks_len_cons, len_app. change (len (enc_blocks [])) with 0.
    change (len [x]) with 1. replace (len b) with (N.of_nat i) by (unfold len; lia). split; lia.
Qed.

Lemma bitmap_len_ok m : List.length m = N.to_nat 8192 ->
  nsec_types_bitmap_len m = len (write_nsec_types_bitmap m) /\ len (write_nsec_types_bitmap m) <= 8704.
Proof.
  intros H. destruct (mask_chunks m H) as (cs & -> & H1 & H2).
  unfold nsec_types_bitmap_len, write_nsec_types_bitmap. rewrite chunks_concat by (auto; lia).
  assert (Hl : 0 + len cs <= 256) by (unfold len; lia).
  rewrite write_blocks_enc by auto.
  destruct (bitmap_len_loop cs 0 0 H2) as [-> ?]; [unfold len; lia|]. unfold len in *. split; lia.
Qed.

(** A canonical bitmap is what the writer produces for the mask it describes. *)
Lemma canonical_unique_aux cs : forall idx bl, Forall (fun c => List.length c = 32%nat) cs -> idx + len cs = 256 ->
  canonical_from idx bl ->
  (forall i, (32 * N.to_nat idx <= i < N.to_nat 8192)%nat -> nth (i - 32 * N.to_nat idx) (concat cs) 0 = octet_at bl i 0) ->
  bl = blocks_from idx cs.
Proof.
  induction cs as [|c cs IH]; intros idx bl HF Hl Hc Hoct.
  - cbn. inversion Hc; subst; auto. rewrite len_nil in Hl. lia.
  - inversion HF; subst. rewrite len_cons in Hl. cbn [blocks_from].
    assert (Hlen : (32 * N.to_nat (idx + 1) = 32 * N.to_nat idx + 32)%nat) by lia.
    assert (Hc32 : forall k, (k < 32)%nat -> nth k c 0 = octet_at bl (32 * N.to_nat idx + k) 0).
    { intros k Hk. rewrite <- Hoct by lia. cbn [concat]. rewrite app_nth1 by lia. f_equal. lia. }
    assert (Hrest : forall bl', (forall i, (32 * N.to_nat (idx + 1) <= i < N.to_nat 8192)%nat -> octet_at bl i 0 = octet_at bl' i 0) ->
       forall i, (32 * N.to_nat (idx + 1) <= i < N.to_nat 8192)%nat -> nth (i - 32 * N.to_nat (idx + 1)) (concat cs) 0 = octet_at bl' i 0).
    { intros bl' Hb i Hi. rewrite <- Hb by auto. rewrite <- Hoct by lia. cbn [concat].
      rewrite app_nth2 by lia. f_equal. lia. }
    assert (Hcase : (exists b x t, bl = (idx, b ++ [x]) :: t /\ (List.length b < 32)%nat /\ x <> 0 /\ canonical_from (idx + 1) t)
              \/ canonical_from (idx + 1) bl).
    { inversion Hc; subst; [right; constructor|]. destruct (N.eq_dec w' idx).
      - subst. left. exists b, x, t. auto.
      - right. constructor; auto. lia. }
    destruct Hcase as [(b & x & t & -> & Hb & Hx & Ht)|Hc'].
    + assert (Ec : c = b ++ [x] ++ repeat 0 (31 - List.length b)).
      { apply nth_ext' with 32%nat; auto.
        - rewrite !app_length, repeat_length. cbn [List.length]. lia.
        - intros k Hk. rewrite Hc32 by auto. cbn [octet_at]. rewrite octet_at_skip.
          2:{ apply (covers_before _ _ _ Ht). lia. }
          unfold covers. cbn [fst snd]. rewrite app_length. cbn [List.length].
          destruct (Nat.leb_spec (32 * N.to_nat idx) (32 * N.to_nat idx + k)); [|lia]. cbn [andb].
          destruct (Nat.ltb_spec (32 * N.to_nat idx + k) (32 * N.to_nat idx + (List.length b + 1))).
          + replace (32 * N.to_nat idx + k - 32 * N.to_nat idx)%nat with k by lia.
            rewrite (app_assoc b). symmetry. apply app_nth1. rewrite app_length. cbn [List.length]. lia.
          + rewrite (app_assoc b), app_nth2; [symmetry; apply nth_repeat0|]. rewrite app_length. cbn [List.length]. lia. }
      assert (Er : rposition_nz c = Some (List.length b)) by (rewrite Ec; apply rposition_app; auto).
      rewrite Er. cbn [app]. f_equal.
      * f_equal. rewrite Ec. rewrite (app_assoc b). rewrite firstn_app. rewrite app_length. cbn [List.length].
        rewrite Nat.sub_diag, firstn_O, app_nil_r. symmetry. apply firstn_all2. rewrite app_length. cbn. lia.
      * apply IH; auto; [lia|]. apply Hrest. intros i Hi. cbn [octet_at]. unfold covers. cbn [fst snd].
        rewrite app_length. cbn [List.length].
        destruct (Nat.ltb_spec i (32 * N.to_nat idx + (List.length b + 1))); [lia|]. rewrite andb_false_r. reflexivity.
    + assert (Er : rposition_nz c = None).
      { apply rposition_none. rewrite H1. apply nth_ext' with 32%nat; auto using repeat_length.
        intros k Hk. rewrite Hc32 by auto. rewrite nth_repeat0. apply octet_at_skip.
        apply (covers_before _ _ _ Hc'). lia. }
      rewrite Er. cbn [app]. apply IH; [auto|lia|auto|]. apply Hrest. auto.
Qed.

Lemma canonical_written bits m : canonical_bitmap bits -> read_nsec_types_bitmap bits = Ok m ->
  write_nsec_types_bitmap m = bits.
Proof.
  intros (bl & Hc & ->) H. unfold read_nsec_types_bitmap in H.
  rewrite read_bitmap_complete in H by (auto; eapply canonical_fits; eauto). injection H as <-.
  pose proof (fold_splice_nth bl zero_mask 0%nat zero_mask_length (canonical_fits _ _ Hc)) as [HL _].
  destruct (mask_chunks _ HL) as (cs & E & H1 & H2). rewrite E. unfold write_nsec_types_bitmap.
  rewrite chunks_concat by (auto; lia).
  assert (Hlc : 0 + len cs = 256) by (unfold len; lia).
  rewrite write_blocks_enc by (auto; lia). f_equal. symmetry. apply canonical_unique_aux; auto.
  intros i Hi. rewrite <- E.
  destruct (fold_splice_nth bl zero_mask i zero_mask_length (canonical_fits _ _ Hc)) as [_ Ho].
  rewrite zero_mask_nth in Ho. rewrite <- Ho. f_equal. lia.
Qed.

(** ** Type masks *)

Lemma update_nth_length i f l : List.length (update_nth i f l) = List.length l.
Proof. revert i. induction l; destruct i; cbn; auto. Qed.
Lemma update_nth_same i f l : (i < List.length l)%nat -> nth i (update_nth i f l) 0 = f (nth i l 0).
Proof. revert i. induction l; destruct i; cbn; intros; try lia; auto. apply IHl. lia. Qed.
Lemma update_nth_other i j f l : i <> j -> nth j (update_nth i f l) 0 = nth j l 0.
Proof. revert i j. induction l; destruct i, j; cbn; intros; try congruence; auto. Qed.

Definition bit_of (t : N) : N := 7 - t mod 8.
Lemma contains_testbit m ty : mask_contains m ty = N.testbit (nth (N.to_nat (ty / 8)) m 0) (bit_of ty).
Proof.
  unfold mask_contains, bit_of. rewrite N.shiftr_div_pow2. change (2 ^ 3) with 8.
  set (x := nth (N.to_nat (ty / 8)) m 0). set (k := 7 - ty mod 8).
  destruct (N.testbit x k) eqn:E.
  - apply negb_true_iff, N.eqb_neq. intros H.
    assert (N.testbit (N.land x (N.shiftl 1 k)) k = false) by (rewrite H; apply N.bits_0).
    rewrite N.land_spec, E, N.shiftl_spec_high', N.sub_diag in H0 by lia. discriminate.
  - apply negb_false_iff, N.eqb_eq. apply N.bits_inj_0. intros j. rewrite N.land_spec.
    destruct (N.eq_dec j k) as [->|Hj]; [rewrite E; reflexivity|].
    destruct (N.lt_ge_cases j k).
    + rewrite N.shiftl_spec_low by auto. apply andb_false_r.
    + rewrite N.shiftl_spec_high' by auto. replace (N.testbit 1 (j - k)) with false; [apply andb_false_r|].
      symmetry. replace (j - k) with (N.succ (j - k - 1)) by lia. apply N.testbit_odd_succ with (a := 0). lia.
Qed.

Lemma set_bit_spec x k j : N.testbit (N.lor x (N.shiftl 1 k)) j = N.testbit x j || (j =? k).
Proof.
  rewrite N.lor_spec. f_equal. destruct (N.eqb_spec j k) as [->|Hj].
  - rewrite N.shiftl_spec_high', N.sub_diag by lia. reflexivity.
  - destruct (N.lt_ge_cases j k).
    + apply N.shiftl_spec_low; auto.
    + rewrite N.shiftl_spec_high' by auto. replace (j - k) with (N.succ (j - k - 1)) by lia.
      apply N.testbit_odd_succ with (a := 0). lia.
Qed.

Lemma type_pos_inj a b : a / 8 = b / 8 -> bit_of a = bit_of b -> a = b.
Proof.
  unfold bit_of. intros H1 H2. rewrite (N.div_mod a 8), (N.div_mod b 8) by discriminate.
  pose proof (N.mod_lt a 8). pose proof (N.mod_lt b 8). lia.
Qed.

Definition add_type (flags : bytes) (t : N) : bytes :=
  update_nth (N.to_nat (N.shiftr t 3)) (fun f => N.lor f (N.shiftl 1 (7 - t mod 8))) flags.

Lemma add_type_contains m t ty : List.length m = N.to_nat 8192 -> t < 65536 ->
  List.length (add_type m t) = N.to_nat 8192 /\
  mask_contains (add_type m t) ty = mask_contains m ty || (ty =? t).
Proof.
  intros HL Ht. unfold add_type. rewrite N.shiftr_div_pow2. change (2 ^ 3) with 8.
  split; [rewrite update_nth_length; auto|]. rewrite !contains_testbit.
  assert (Hr : (N.to_nat (t / 8) < List.length m)%nat).
  { rewrite HL. assert (t / 8 < 8192) by (apply N.div_lt_upper_bound; lia). lia. }
  destruct (N.eq_dec (ty / 8) (t / 8)) as [E|E].
  - rewrite E, update_nth_same by auto. fold (bit_of t). rewrite set_bit_spec. f_equal.
    destruct (N.eqb_spec ty t) as [->|Hn]; [apply N.eqb_refl|].
    apply N.eqb_neq. intros Hb. apply Hn. apply type_pos_inj; auto.
  - rewrite update_nth_other by lia. destruct (N.eqb_spec ty t) as [->|]; [congruence|]. rewrite orb_false_r. reflexivity.
Qed.

Lemma from_types_aux ts : forall m ty, List.length m = N.to_nat 8192 -> Forall (fun t => t < 65536) ts ->
  List.length (fold_left add_type ts m) = N.to_nat 8192 /\
  (mask_contains (fold_left add_type ts m) ty = true <-> mask_contains m ty = true \/ In ty ts).
Proof.
  induction ts as [|t ts IH]; intros m ty HL HF; [cbn; intuition|]. inversion HF; subst.
  destruct (add_type_contains m t ty HL H1) as [H3 H4]. cbn [fold_left In].
  destruct (IH (add_type m t) ty H3 H2) as [H5 H6]. split; auto. rewrite H6, H4, orb_true_iff, N.eqb_eq. intuition.
Qed.

Lemma zero_contains ty : mask_contains zero_mask ty = false.
Proof. rewrite contains_testbit, zero_mask_nth. apply N.bits_0. Qed.

Lemma from_types_spec ts ty : Forall (fun t => t < 65536) ts ->
  List.length (mask_from_types ts) = N.to_nat 8192 /\
  (mask_contains (mask_from_types ts) ty = true <-> In ty ts).
Proof.
  intros H. destruct (from_types_aux ts zero_mask ty zero_mask_length H) as [H1 H2]. split; [exact H1|].
  change (mask_from_types ts) with (fold_left add_type ts zero_mask). rewrite H2, zero_contains. intuition discriminate.
Qed.
