(** Panics of [process_response]; framing; the TCP driver. *)
From Verif Require Import Base BaseP NameM NameSpec NameP WireM WireSpec WireP RRM SerM RecSpec RecP RecP2 HeldP ValSpec ValM ValP QueryM QBufP QuerySpec QueryP QueryP2 QueryP3.
From Coq Require Import Lia Arith.
Local Open Scope N_scope.

(** ** Queries *)
Lemma query_decodes n ty b : proper_name n -> Query n ty b ->
  exists nb, NameIn b nb n /\ b = [0; 0; 1; 32; 0; 1; 0; 0; 0; 0; 0; 1] ++ nb ++ u16 ty ++ [0; 1] ++ [0; 0; 41; 0; 0; 0; 0; 128; 0; 0; 0].
Proof.
  intros P (ls & L & E). assert (V : valid_name n) by (apply proper_name_valid; exact P). exists (wire_name ls).
  split; [|rewrite E, <- !app_assoc; reflexivity].
  rewrite <- (write_name_labels n ls V L). pose proof (name_roundtrip n b [] P) as R. apply read_name_in in R. destruct R as (x & E' & H).
  apply app_inv_tail in E'. rewrite E'. exact H.
Qed.
Lemma query_built n ty : name_try_from n = Some n -> ty < 65536 -> exists q, builder_new n ty = Ok (builder_init, q) /\
  Query n ty (qb_deref q) /\ (length (qb_deref q) <= 283)%nat.
Proof.
  intros V T. destruct (build_query_spec n ty V T) as (q & E & Q & L). exists q. unfold builder_new. rewrite E. auto.
Qed.

(** ** Panics *)
Lemma rdata_overflow w lax ty o r data : RData (NameIn w) lax ty o r data -> is_bytes data -> length_of data <= 65535 -> Held r ->
  (write_data_overflows r = true <-> oversized r).
Proof.
  intros H Hb HL HH. destruct H; try (split; [discriminate|intros (? & X & _); discriminate X]; fail).
  - cbn [write_data_overflows]. rewrite N.ltb_lt. unfold Held in HH. cbn [typed_rr] in HH. destruct HH as (_ & _ & _ & _ & _ & _ & _ & _ & Hk & _).
    cbn [rs_key_name rs_signature] in *. destruct (held_name_len _ Hk) as [-> _].
    assert (L : len s < 65536). { unfold length_of in HL. cbn [u16 u32 app List.length] in HL. rewrite app_length in HL. unfold len. lia. }
    rewrite as_u16_small by exact L. split.
    + intros G. eexists. split; [reflexivity|exact G].
    + intros (x & [= <-] & G). exact G.
  - split; [|intros (? & X & _); discriminate X]. intros O. rewrite fits_no_overflow in O; [discriminate O|exact HH|exact I].
  - split; [|intros (? & X & _); discriminate X]. intros O. rewrite fits_no_overflow in O; [discriminate O|exact HH|].
    cbn [fits_rr n3_salt n3_next_hash].
    repeat match goal with
    | G : is_bytes (_ ++ _) |- _ => apply is_bytes_app in G as [? G]
    | G : is_bytes (_ :: _) |- _ => apply is_bytes_cons in G as [? G]
    end. unfold is_u8 in *. lia.
Qed.
Lemma record_overflow w lax rec r ttl : RecordEnc (NameIn w) lax rec r ttl -> is_bytes rec -> (write_data_overflows r = true <-> oversized r).
Proof.
  intros H B. pose proof (record_held _ _ _ _ _ H B) as [HH _]. destruct H.
  repeat (apply is_bytes_app in B as [? B]). eapply rdata_overflow; eauto.
  match goal with G : is_bytes (u16 (length_of data)) |- _ => apply u16_bytes in G; unfold is_u16 in G; lia end.
Qed.

Lemma section_no_loop dbg resp keep n : forall read t0 hs, bytes_ok read = true -> fst (read_section dbg resp keep n read t0 hs) <> Loop.
Proof.
  induction n as [|n IH]; intros read t0 hs B; cbn [read_section]; [discriminate|].
  destruct (parse_wire_packet_rr dbg read resp) as [[[r t] read']| | |] eqn:E; try discriminate.
  - assert (B' : bytes_ok read' = true).
    { apply parse_rr_sound in E; [|exact B]. destruct E as (rec & -> & _). apply bytes_ok_app_inv in B. apply B. }
    destruct (keep r); [|apply IH; exact B']. destruct (emit dbg r t hs); [apply IH; exact B'|discriminate].
  - exfalso. eapply (proj2 (parse_packet_crash dbg read resp B)). exact E.
Qed.

Definition SecBad (dbg : bool) (resp : bytes) (keep : RR -> bool) (n : nat) (read : bytes) : Prop :=
  exists b l tail, read = b ++ tail /\ Records (negb dbg) resp b l /\ (length l <= n)%nat /\
     ((length l < n)%nat /\ (exists rec rest, tail = rec ++ rest /\ BadRecord (NameIn resp) dbg rec) \/
      dbg = true /\ exists rt, oversized (fst rt) /\ In rt l /\ keep (fst rt) = true).
Lemma secbad_first dbg resp keep n read : bytes_ok read = true -> SecBad dbg resp keep (S n) read ->
  parse_wire_packet_rr dbg read resp = Panic \/
  exists rec r t rest, read = rec ++ rest /\ RecordEnc (NameIn resp) (negb dbg) rec r t /\ parse_wire_packet_rr dbg read resp = Ok (r, t, rest) /\
    (SecBad dbg resp keep n rest \/ dbg = true /\ oversized r /\ keep r = true).
Proof.
  intros B (b & l & tail & E & R & L & H). destruct R as [|rec r t b l Re R].
  - left. destruct H as [[_ (rec & rest & -> & Bd)]|(_ & rt & _ & [] & _)].
    apply (parse_packet_crash dbg read resp B). exists rec, rest. auto.
  - right. exists rec, r, t, (b ++ tail). rewrite <- app_assoc in E. split; [exact E|]. split; [exact Re|].
    split; [rewrite E; apply parse_rr_complete; exact Re|]. cbn [length] in L.
    destruct H as [[L' Bd]|(D & rt & O & [<-|I] & K)].
    + left. exists b, l, tail. cbn [length] in L'. split; [reflexivity|]. split; [exact R|]. split; [lia|]. left. split; [lia|exact Bd].
    + right. auto.
    + left. exists b, l, tail. split; [reflexivity|]. split; [exact R|]. split; [lia|]. right. eauto.
Qed.
Lemma section_panic dbg resp keep n : forall read t0 hs, bytes_ok read = true ->
  (fst (read_section dbg resp keep n read t0 hs) = Panic <-> SecBad dbg resp keep n read).
Proof.
  induction n as [|n IH]; intros read t0 hs B; cbn [read_section].
  - split; [discriminate|]. intros (b & l & tail & _ & _ & L & [[L' _]|(_ & rt & _ & I & _)]); [lia|].
    destruct l; [contradiction|cbn in L; lia].
  - pose proof (parse_packet_crash dbg read resp B) as [PC NL].
    destruct (parse_wire_packet_rr dbg read resp) as [[[r t] read']|u| |] eqn:E.
    + pose proof E as E'. apply parse_rr_sound in E'; [|exact B]. destruct E' as (rec & Er & Re).
      assert (B2 := B). rewrite Er in B2. apply bytes_ok_app_inv in B2. destruct B2 as [B1 B2]. apply is_bytes_ok in B1.
      pose proof (record_overflow _ _ _ _ _ Re B1) as OV.
      assert (Eq : SecBad dbg resp keep (S n) read <-> SecBad dbg resp keep n read' \/ dbg = true /\ oversized r /\ keep r = true).
      { split.
        - intros S. apply secbad_first in S; [|exact B]. destruct S as [S|(rec' & r' & t' & rest' & _ & _ & S & S2)]; [congruence|].
          rewrite E in S. injection S as <- <- <-. exact S2.
        - intros [(b & l & tail & E2 & R & L & H)|(D & O & K)].
          + exists (rec ++ b), ((r, t) :: l), tail. split; [rewrite Er, E2, app_assoc; reflexivity|]. split; [constructor; assumption|].
            cbn [length]. split; [lia|]. destruct H as [[L' Bd]|(D & rt & O & I & K)]; [left; split; [lia|exact Bd]|].
            right. split; [exact D|]. exists rt. split; [exact O|]. split; [right; exact I|exact K].
          + exists (rec ++ []), [(r, t)], read'. rewrite app_nil_r. split; [exact Er|].
            split; [rewrite <- (app_nil_r rec); constructor; [exact Re|constructor]|]. split; [cbn; lia|].
            right. split; [exact D|]. exists (r, t). cbn. auto. }
      rewrite Eq. destruct (keep r) eqn:K.
      * unfold emit. destruct dbg; cbn [andb].
        -- destruct (write_data_overflows r) eqn:O.
           ++ split; [|reflexivity]. intros _. right. rewrite <- OV. auto.
           ++ rewrite IH by exact B2. split; [auto|]. intros [H|(_ & H & _)]; [exact H|]. apply OV in H. congruence.
        -- rewrite IH by exact B2. split; [auto|]. intros [H|(H & _)]; [exact H|discriminate H].
      * rewrite IH by exact B2. split; [auto|]. intros [H|(_ & _ & H)]; [exact H|discriminate H].
    + split; [discriminate|]. intros S. apply secbad_first in S; [|exact B].
      destruct S as [S|(rec' & r' & t' & rest' & _ & _ & S & S2)]; congruence.
    + split; [|reflexivity]. intros _. exists [], [], read. split; [reflexivity|]. split; [constructor|]. split; [cbn; lia|].
      left. split; [cbn; lia|]. apply PC. reflexivity.
    + exfalso. apply NL. reflexivity.
Qed.

Lemma skip_no_crash resp n : forall read, no_crash (skip_questions resp n read).
Proof.
  induction n as [|n IH]; intros read; cbn [skip_questions]; [split; discriminate|].
  apply obind_nc; [apply read_name_no_crash|]. intros [? ?] _. apply obind_nc; [apply read_u16_nc|]. intros [? ?] _.
  apply obind_nc; [apply read_u16_nc|]. intros [? ?] _. apply IH.
Qed.
Lemma header_no_crash resp : no_crash (read_header resp).
Proof.
  unfold read_header.
  repeat first [ apply skip_no_crash | apply read_u16_nc | split; discriminate
    | match goal with |- no_crash (obind _ _) => apply obind_nc; [|try (intros [? ?] _)] | |- no_crash (if _ then _ else _) => destruct (_ : bool) | |- no_crash (if ?c then _ else _) => destruct c end
    | intros ? _ ].
Qed.
Lemma records_app lax m b1 l1 : Records lax m b1 l1 -> forall b2 l2, Records lax m b2 l2 -> Records lax m (b1 ++ b2) (l1 ++ l2).
Proof. induction 1; intros; cbn [app]; [assumption|]. rewrite <- app_assoc. constructor; auto. Qed.
Lemma records_split lax m b l : Records lax m b l -> forall n, (n <= length l)%nat -> exists b1 b2, b = b1 ++ b2 /\ Records lax m b1 (firstn n l) /\ Records lax m b2 (skipn n l).
Proof.
  induction 1 as [|rec r t b l Re R IH]; intros n L.
  - exists [], []. cbn [length] in L. destruct n; [|lia]. repeat split; constructor.
  - destruct n as [|n].
    + exists [], (rec ++ b). repeat split; constructor; assumption.
    + cbn [length] in L. destruct (IH n) as (b1 & b2 & -> & R1 & R2); [lia|]. exists (rec ++ b1), b2.
      rewrite app_assoc. split; [reflexivity|]. split; [cbn; constructor; assumption|exact R2].
Qed.
Lemma section_ok_or dbg resp keep b l tail n t0 p ns : (length l = n)%nat -> Records (negb dbg) resp b l -> is_bytes b ->
  (exists t hs, read_section dbg resp keep n (b ++ tail) t0 (p, ns) = (Ok (t, tail), hs)) \/
  dbg = true /\ exists rt, oversized (fst rt) /\ In rt l /\ keep (fst rt) = true.
Proof.
  intros L R B. destruct dbg.
  - destruct (existsb (fun rt => keep (fst rt) && write_data_overflows (fst rt)) l) eqn:X.
    + right. split; [reflexivity|]. apply existsb_exists in X. destruct X as (rt & I & X). apply andb_true_iff in X. destruct X as [K O].
      exists rt. split; [|auto]. clear -R B I O. induction R as [|rec r t b l Re R IH]; [contradiction|].
      apply is_bytes_app in B. destruct B as [B1 B2]. destruct I as [<-|I]; [|auto]. cbn [fst] in *.
      apply (record_overflow _ _ _ _ _ Re B1). exact O.
    + left. rewrite <- L. rewrite (section_complete _ _ keep _ _ R); [eauto|]. intros _. apply Forall_forall. intros rt I.
      apply filter_In in I. destruct I as [I K]. rewrite existsb_false in X. apply X in I. rewrite K in I. exact I.
  - left. rewrite <- L. rewrite (section_complete _ _ keep _ _ R); [eauto|]. discriminate.
Qed.

Lemma handle_no_loop dbg m hs : bytes_ok m = true -> fst (handle_response dbg m hs) <> Loop.
Proof.
  intros B. destruct hs as [p ns]. unfold handle_response. pose proof (header_no_crash m) as [_ NL].
  destruct (read_header m) as [[[an au] read]| | |] eqn:Hh; try discriminate; [|congruence].
  apply header_sound in Hh; [|exact B]. destruct Hh as (f & ex & nb & n & qty & qcl & E & _).
  assert (Br : bytes_ok read = true).
  { rewrite E in B. repeat (apply bytes_ok_app_inv in B; destruct B as [_ B]). exact B. }
  pose proof (section_no_loop dbg m (fun _ => true) (N.to_nat an) read (2 ^ 32 - 1) (p, ns) Br) as S1.
  destruct (read_section dbg m (fun _ => true) (N.to_nat an) read (2 ^ 32 - 1) (p, ns)) as [[[t1 r1]| | |] [p1 ns1]] eqn:E1; try discriminate; [|contradiction].
  apply section_sound in E1; [|exact Br]. destruct E1 as (b & l & -> & _). apply bytes_ok_app_inv in Br. destruct Br as [_ Br].
  pose proof (section_no_loop dbg m authority_kept (N.to_nat au) r1 t1 (p1, ns1) Br) as S2.
  destruct (read_section dbg m authority_kept (N.to_nat au) r1 t1 (p1, ns1)) as [[[t2 r2]| | |] hs2]; try discriminate. contradiction.
Qed.
Lemma handle_panic dbg m hs : bytes_ok m = true -> (fst (handle_response dbg m hs) = Panic <-> BadResponse dbg m).
Proof.
  intros B. destruct hs as [p ns]. split.
  - intros H. unfold handle_response in H. pose proof (header_no_crash m) as [NP _].
    destruct (read_header m) as [[[an au] read]| | |] eqn:Hh; try discriminate H; [|congruence].
    apply header_sound in Hh; [|exact B]. destruct Hh as (f & ex & nb & n & qty & qcl & E & Nn & Lf & F & Na).
    rewrite flags_spec in F by exact Lf. apply flags_want_iff in F. destruct F as (F1 & F2 & F3 & F4 & F5).
    assert (Br : bytes_ok read = true).
    { rewrite E in B. repeat (apply bytes_ok_app_inv in B; destruct B as [_ B]). exact B. }
    destruct (read_section dbg m (fun _ => true) (N.to_nat an) read (2 ^ 32 - 1) (p, ns)) as [r [p1 ns1]] eqn:S1.
    assert (CASE : r = Panic \/ exists t1 r1, r = Ok (t1, r1) /\ fst (read_section dbg m authority_kept (N.to_nat au) r1 t1 (p1, ns1)) = Panic).
    { destruct r as [[t1 r1]| | |]; try discriminate H; [|auto]. right. exists t1, r1. split; [reflexivity|].
      destruct (read_section dbg m authority_kept (N.to_nat au) r1 t1 (p1, ns1)) as [[[? ?]| | |] ?]; try discriminate H. reflexivity. }
    clear H. destruct CASE as [->|(t1 & r1 & -> & S2)].
    + assert (S : SecBad dbg m (fun _ => true) (N.to_nat an) read).
      { apply (section_panic dbg m _ _ read (2 ^ 32 - 1) (p, ns) Br). rewrite S1. reflexivity. }
      destruct S as (b & l & tail & -> & R & L & H).
      exists f, (N.to_nat an), (N.to_nat au), ex, nb, n, qty, qcl, b, l, tail. rewrite !N2Nat.id. split; [exact E|].
      repeat (split; [assumption|]). split; [lia|]. split; [exact R|]. split; [lia|].
      destruct H as [[L' Bd]|(D & rt & O & I & _)]; [left; split; [lia|exact Bd]|]. right. split; [exact D|]. exists rt. split; [exact O|]. left.
      rewrite firstn_all2 by exact L. exact I.
    + apply section_sound in S1; [|exact Br]. destruct S1 as (b & l & -> & R & L & _). apply bytes_ok_app_inv in Br. destruct Br as [_ Br].
      apply section_panic in S2; [|exact Br]. destruct S2 as (b2 & l2 & tail & -> & R2 & L2 & H).
      exists f, (N.to_nat an), (N.to_nat au), ex, nb, n, qty, qcl, (b ++ b2), (l ++ l2), tail. rewrite !N2Nat.id, <- app_assoc. split; [exact E|].
      repeat (split; [assumption|]). split; [lia|]. split; [apply records_app; assumption|]. rewrite app_length. split; [lia|].
      destruct H as [[L' Bd]|(D & rt & O & I & K)]; [left; split; [lia|exact Bd]|]. right. split; [exact D|]. exists rt. split; [exact O|]. right.
      rewrite <- L. rewrite skipn_app, Nat.sub_diag, skipn_all. cbn [app skipn]. split; [exact I|]. rewrite <- denial_kept. exact K.
  - intros (f & an & au & ex & nb & n & qty & qcl & b & l & tail & E & Nn & F1 & F2 & F3 & F4 & F5 & Na & R & L & H).
    assert (F : f < 65536). { rewrite E in B. apply bytes_ok_app_inv in B as [_ B]. apply bytes_ok_app_inv in B as [B _]. apply u16_bytes, is_bytes_ok. exact B. }
    unfold handle_response. erewrite header_complete; [|exact E|exact Nn| |lia].
    2: { rewrite flags_spec by exact F. apply flags_want_iff. auto. }
    assert (Br : bytes_ok (b ++ tail) = true).
    { revert B. rewrite E at 1. intros B. do 9 (apply bytes_ok_app_inv in B; destruct B as [_ B]). exact B. }
    rewrite !Nat2N.id.
    assert (FIRST : SecBad dbg m (fun _ => true) an (b ++ tail) -> fst (match read_section dbg m (fun _ => true) an (b ++ tail) (2 ^ 32 - 1) (p, ns) with
      | (Ok (ttl, read), hs) => match read_section dbg m authority_kept au read ttl hs with
          | (Ok (ttl, _), hs) => (Ok ttl, hs) | (Err x, hs) => (Err x, hs) | (Panic, hs) => (Panic, hs) | (Loop, hs) => (Loop, hs) end
      | (Err x, hs) => (Err x, hs) | (Panic, hs) => (Panic, hs) | (Loop, hs) => (Loop, hs) end) = Panic).
    { intros S. apply (section_panic _ _ _ _ _ (2 ^ 32 - 1) (p, ns) Br) in S.
      destruct (read_section _ _ _ _ _ _ _) as [[[? ?]| | |] ?]; try discriminate S. reflexivity. }
    destruct (Nat.le_gt_cases an (length l)) as [G|G].
    + destruct (records_split _ _ _ _ R an G) as (b1 & b2 & -> & R1 & R2). rewrite <- app_assoc in *.
      assert (Lan : length (firstn an l) = an) by (apply firstn_length_le; exact G).
      assert (OVER1 : forall rt, dbg = true -> oversized (fst rt) -> In rt (firstn an l) -> SecBad dbg m (fun _ => true) an (b1 ++ b2 ++ tail)).
      { intros rt D O I. exists b1, (firstn an l), (b2 ++ tail). split; [reflexivity|]. split; [exact R1|]. split; [lia|]. right. eauto. }
      apply bytes_ok_app_inv in Br. destruct Br as [Br1 Br2]. 
      destruct (section_ok_or dbg m (fun _ => true) b1 (firstn an l) (b2 ++ tail) an (2 ^ 32 - 1) p ns Lan R1) as [(t & hs & S1)|(D & rt & O & I & _)].
      * apply is_bytes_ok. exact Br1.
      * assert (SECOND : SecBad dbg m authority_kept au (b2 ++ tail) \/ SecBad dbg m (fun _ => true) an (b1 ++ b2 ++ tail)).
        { destruct H as [[L' Bd]|(D & rt & O & [I|[I K]])].
          - left. exists b2, (skipn an l), tail. split; [reflexivity|]. split; [exact R2|]. rewrite skipn_length. split; [lia|]. left. split; [lia|exact Bd].
          - right. eauto.
          - left. exists b2, (skipn an l), tail. split; [reflexivity|]. split; [exact R2|]. rewrite skipn_length. split; [lia|].
            right. split; [exact D|]. exists rt. rewrite denial_kept. auto. }
        destruct SECOND as [S2|S2]; [|apply FIRST; exact S2]. rewrite S1.
        apply (section_panic _ _ _ _ _ t hs Br2) in S2.
        clear S1 FIRST. destruct (read_section dbg m authority_kept _ _ _ _) as [[[? ?]| | |] ?]; try discriminate S2. reflexivity.
      * apply FIRST. eauto.
    + apply FIRST. exists b, l, tail. split; [reflexivity|]. split; [exact R|]. split; [lia|].
      destruct H as [[L' Bd]|(D & rt & O & [I|[I _]])]; [left; split; [lia|exact Bd]| |].
      * right. split; [exact D|]. exists rt. rewrite firstn_all2 in I by lia. auto.
      * rewrite skipn_all2 in I by lia. contradiction.
Qed.

Lemma request_total items b qs : Forall (fun rt => Held (fst rt) /\ is_u32 (snd rt)) items ->
  exists qs' b2, request_keys (dedup (sort_by bytes_cmp ([] ++ flat_map signer_of items))) b qs = Ok (qs', b2).
Proof.
  intros Hd. cbn [app]. assert (V : Forall valid_name (dedup (sort_by bytes_cmp (flat_map signer_of items)))).
  { apply Forall_forall. intros k I. apply (proj1 (in_dedup_sort _ k)) in I. apply in_flat_map in I. destruct I as ([r t] & I & K).
    rewrite Forall_forall in Hd. apply Hd in I. destruct I as [I _]. cbn [fst] in I.
    destruct r; try (destruct K; fail). cbn in K. destruct K as [<-|[]]. unfold Held in I. cbn [typed_rr] in I. unfold valid_name. tauto. }
  destruct (request_keys_spec _ b qs V) as (new & qs' & E & _). eauto.
Qed.
Lemma process_panic dbg b m : is_bytes m -> pb_pending b <> 0 ->
  (fst (process_response dbg b m) = Panic <-> BadResponse dbg m) /\ fst (process_response dbg b m) <> Loop.
Proof.
  intros B P. apply is_bytes_ok in B. unfold process_response. apply N.eqb_neq in P. rewrite P.
  pose proof (handle_panic dbg m (pb_proof b, []) B) as HP. pose proof (handle_no_loop dbg m (pb_proof b, []) B) as HL.
  destruct (handle_response dbg m (pb_proof b, [])) as [r [p ns]] eqn:H. cbn [fst] in *.
  destruct r as [ttl| | |]; cbn [fst].
  - assert (R : exists qs b2, request_keys (dedup (sort_by bytes_cmp ns))
        {| pb_proof := p; pb_min_ttl := N.min (pb_min_ttl b) ttl; pb_requested := pb_requested b; pb_pending := pb_pending b - 1; pb_made := pb_made b |} [] = Ok (qs, b2)).
    { destruct (handle_sound _ _ _ _ _ _ B H) as (items & Rs & Hs & _). injection Hs as -> ->.
      apply is_bytes_ok in B. destruct (response_held _ _ _ Rs B) as [Hd _]. eapply request_total. exact Hd. }
    destruct R as (qs & b2 & ->). cbn [fst]. split; [|discriminate]. split; [discriminate|]. intros X. apply HP in X. discriminate X.
  - split; [|discriminate]. split; [discriminate|]. intros X. apply HP in X. discriminate X.
  - split; [|discriminate]. split; [intros _; apply HP; reflexivity|reflexivity].
  - contradiction.
Qed.

(** ** Framing *)
Lemma read_exact_some n : forall segs d r, read_exact n segs = Some (d, r) -> concat segs = d ++ concat r /\ len d = n.
Proof.
  intros segs. revert n. induction segs as [|s t IH]; intros n d r H; cbn [read_exact] in H.
  - destruct (N.eqb_spec n 0); [|discriminate H]. injection H as <- <-. auto.
  - destruct (N.eqb_spec n 0); [injection H as <- <-; auto|]. destruct (N.leb_spec (len s) n) as [L|L].
    + destruct (read_exact (n - len s) t) as [[d' r']|] eqn:E; [|discriminate H]. injection H as <- <-.
      apply IH in E. destruct E as [E1 E2]. cbn [concat]. rewrite E1, app_assoc, len_app. split; [reflexivity|lia].
    + injection H as <- <-. cbn [concat]. rewrite app_assoc, takeN_dropN. split; [reflexivity|]. apply len_takeN. lia.
Qed.
Lemma read_exact_enough n : forall segs, n <= len (concat segs) -> exists d r, read_exact n segs = Some (d, r).
Proof.
  intros segs. revert n. induction segs as [|s t IH]; intros n H; cbn [read_exact].
  - cbn in H. destruct (N.eqb_spec n 0); [eauto|lia].
  - destruct (N.eqb_spec n 0); [eauto|]. destruct (N.leb_spec (len s) n) as [L|L]; [|eauto].
    cbn [concat] in H. rewrite len_app in H. destruct (IH (n - len s)) as (d & r & ->); [lia|]. eauto.
Qed.
Lemma read_exact_none n segs : read_exact n segs = None <-> len (concat segs) < n.
Proof.
  split.
  - intros H. destruct (N.lt_ge_cases (len (concat segs)) n) as [G|G]; [exact G|].
    apply read_exact_enough in G. destruct G as (d & r & G). congruence.
  - intros H. destruct (read_exact n segs) as [[d r]|] eqn:E; [|reflexivity]. apply read_exact_some in E. destruct E as [E1 E2].
    rewrite E1, len_app in H. lia.
Qed.
Lemma read_exact_app n segs d r : concat segs = d ++ r -> len d = n -> exists segs', read_exact n segs = Some (d, segs') /\ concat segs' = r.
Proof.
  intros E L. destruct (read_exact_enough n segs) as (d' & r' & H); [rewrite E, len_app; lia|]. pose proof H as H'.
  apply read_exact_some in H'. destruct H' as [E1 E2]. rewrite E in E1. apply app_inv_len in E1; [|lia]. destruct E1 as [-> ->]. eauto.
Qed.
Lemma u16_two n : exists a b, u16 n = [a; b] /\ a * 256 + b = n.
Proof. exists (n / 256), (n mod 256). split; [reflexivity|]. pose proof (N.div_mod n 256). lia. Qed.
Lemma send_frame m : length_of m <= 65535 -> send_query m = frame m.
Proof. intros L. unfold send_query, frame. change (len m) with (length_of m). rewrite as_u16_small, be16_u16 by lia. reflexivity. Qed.

Lemma read_frame segs m rest : length_of m <= 65535 -> concat segs = frame m ++ rest ->
  exists q segs', read_response segs = Some (q, segs') /\ qb_deref q = m /\ concat segs' = rest.
Proof.
  intros L E. unfold frame in E. rewrite <- app_assoc in E. unfold read_response.
  destruct (read_exact_app 2 segs _ _ E eq_refl) as (s1 & -> & E1). destruct (u16_two (length_of m)) as (a & b & -> & V).
  cbn [nth]. rewrite V. destruct (read_exact_app (length_of m) s1 m rest E1 eq_refl) as (s2 & -> & E2).
  eexists _, _. split; [reflexivity|]. split; [|exact E2]. apply qrep_deref. eapply qrep_fill; [apply qrep_new; exact L|].
  rewrite QBufP.len_repeat. reflexivity.
Qed.
Lemma read_response_some segs q segs' : is_bytes (concat segs) -> read_response segs = Some (q, segs') ->
  concat segs = frame (qb_deref q) ++ concat segs' /\ length_of (qb_deref q) <= 65535.
Proof.
  intros B H. unfold read_response in H. destruct (read_exact 2 segs) as [[lb s1]|] eqn:E1; [|discriminate H].
  apply read_exact_some in E1. destruct E1 as [E1 L1]. destruct lb as [|a [|b [|]]]; try (unfold len in L1; cbn in L1; lia). cbn [nth] in H.
  destruct (read_exact (a * 256 + b) s1) as [[d s2]|] eqn:E2; [|discriminate H]. injection H as <- <-.
  apply read_exact_some in E2. destruct E2 as [E2 L2]. rewrite E1 in B. apply is_bytes_app in B. destruct B as [B _].
  assert (Ba : a < 256 /\ b < 256). { inversion B as [|? ? X Y]; subst. inversion Y; subst. split; assumption. }
  assert (D : qb_deref (qb_fill (new_zeroed (a * 256 + b)) d) = d).
  { apply qrep_deref. eapply qrep_fill; [apply qrep_new; lia|]. rewrite QBufP.len_repeat. exact L2. }
  rewrite D, E1, E2. change (length_of d) with (len d). split; [|lia]. unfold frame. change (length_of d) with (len d). rewrite L2, <- app_assoc.
  f_equal. unfold u16. f_equal; [|f_equal].
  - rewrite N.add_comm, N.div_add by lia. rewrite N.div_small by lia. lia.
  - rewrite N.add_comm, N.mod_add by lia. rewrite N.mod_small by lia. lia.
Qed.
Lemma read_response_none segs : is_bytes (concat segs) ->
  (read_response segs = None <-> ~ exists m rest, length_of m <= 65535 /\ concat segs = frame m ++ rest).
Proof.
  intros B. split.
  - intros H (m & rest & L & E). destruct (read_frame _ _ _ L E) as (q & s & X & _). congruence.
  - intros H. destruct (read_response segs) as [[q s]|] eqn:E; [|reflexivity]. exfalso. apply H.
    apply read_response_some in E; [|exact B]. destruct E as [E L]. eauto.
Qed.
Lemma read_frames ms : forall segs rest, Forall (fun m => length_of m <= 65535) ms -> concat segs = flat_map frame ms ++ rest ->
  exists segs', Reads segs ms segs' /\ concat segs' = rest.
Proof.
  induction ms as [|m ms IH]; intros segs rest F E.
  - exists segs. split; [constructor|exact E].
  - inversion F as [|? ? L F']; subst. cbn [flat_map] in E. rewrite <- app_assoc in E.
    destruct (read_frame _ _ _ L E) as (q & s1 & R & D & E1). destruct (IH _ _ F' E1) as (s2 & R2 & E2).
    exists s2. split; [rewrite <- D; econstructor; eassumption|exact E2].
Qed.
Lemma reads_unique segs ms s : Reads segs ms s -> forall ms' s', Reads segs ms' s' -> length ms = length ms' -> ms = ms' /\ s = s'.
Proof.
  induction 1 as [segs|segs q s1 ms s2 E R IH]; intros ms' s' R' L; inversion R'; subst; try discriminate L; [auto|].
  rewrite E in H. injection H as <- <-. cbn [length] in L. destruct (IH _ _ H0) as [-> ->]; [lia|]. auto.
Qed.
Lemma sent_read ms segs : Forall (fun m => length_of m <= 65535) ms -> concat segs = flat_map send_query ms ->
  exists segs', Reads segs ms segs' /\ concat segs' = [].
Proof.
  intros F E. apply read_frames; [exact F|]. rewrite E, app_nil_r. clear -F. induction F as [|m ms L F IH]; [reflexivity|].
  cbn [flat_map]. rewrite IH, send_frame by exact L. reflexivity.
Qed.
Lemma sent_truncated m p x s segs : length_of m <= 65535 -> send_query m = p ++ x :: s -> concat segs = p -> read_response segs = None.
Proof.
  intros L E C. rewrite send_frame in E by exact L. unfold frame in E. unfold read_response.
  destruct (read_exact 2 segs) as [[lb s1]|] eqn:R1; [|reflexivity]. apply read_exact_some in R1. destruct R1 as [R1 L1].
  destruct (u16_two (length_of m)) as (a & b & U & V). rewrite U, <- C, R1, <- !app_assoc in E. apply app_inv_len in E; [|exact (eq_sym L1)].
  destruct E as [<- E]. cbn [nth]. rewrite V. replace (read_exact (length_of m) s1) with (@None (bytes * list bytes)); [reflexivity|].
  symmetry. apply read_exact_none. rewrite E. unfold length_of, len. rewrite app_length. cbn [length]. lia.
Qed.

(** ** The driver *)
Lemma drive_sound dbg fuel : forall b segs sent o sent', is_bytes (concat segs) -> drive dbg fuel b segs sent = (o, sent') -> forall tr0 b0,
  Driven dbg b0 tr0 b ->
  exists tr b' rest, Driven dbg b0 (tr0 ++ tr) b' /\ concat segs = flat_map frame (map fst tr) ++ rest /\
    Forall (fun c => is_bytes (fst c)) tr /\
    ((exists res, o = Ok res) -> Forall (fun c => is_ok (snd c) = true) tr) /\
    (forall res, o = Ok res -> finish_proof b' = Ok res /\ awaiting_responses b' = false) /\
    sent' = sent ++ map (fun q => send_query (qb_deref q)) (handed tr).
Proof.
  induction fuel as [|fuel IH]; intros b segs sent o sent' B H tr0 b0 D; cbn [drive] in H.
  - destruct (awaiting_responses b) eqn:A.
    + injection H as <- <-. exists [], b, (concat segs). rewrite !app_nil_r. split; [exact D|]. split; [reflexivity|]. split; [constructor|].
      split; [constructor|]. split; [intros res X; discriminate X|reflexivity].
    + injection H as <- <-. exists [], b, (concat segs). rewrite !app_nil_r. split; [exact D|]. split; [reflexivity|]. split; [constructor|].
      split; [constructor|]. split; [auto|reflexivity].
  - destruct (awaiting_responses b) eqn:A.
    2: { injection H as <- <-. exists [], b, (concat segs). rewrite !app_nil_r. split; [exact D|]. split; [reflexivity|]. split; [constructor|].
         split; [constructor|]. split; [auto|reflexivity]. }
    assert (STOP : o <> Panic -> True) by auto.
    destruct (read_response segs) as [[q s1]|] eqn:R.
    2: { injection H as <- <-. exists [], b, (concat segs). rewrite !app_nil_r. split; [exact D|]. split; [reflexivity|]. split; [constructor|].
         split; [constructor|]. split; [intros res X; discriminate X|reflexivity]. }
    apply read_response_some in R; [|exact B]. destruct R as [R L]. rewrite R in B. apply is_bytes_app in B. destruct B as [B1 B2].
    unfold frame in B1. apply is_bytes_app in B1. destruct B1 as [_ B1].
    destruct (process_response dbg b (qb_deref q)) as [[qs|u| |] b1] eqn:P.
    + apply (IH _ _ _ _ _ B2) with (tr0 := tr0 ++ [(qb_deref q, Ok qs)]) (b0 := b0) in H.
      2: { econstructor; [exact D|exact A|exact P|discriminate|discriminate]. }
      destruct H as (tr & b' & rest & D' & E & F & AO & Fi & S). exists ((qb_deref q, Ok qs) :: tr), b', rest.
      split; [rewrite <- app_assoc in D'; exact D'|]. split; [cbn [map fst flat_map]; rewrite <- app_assoc, <- E; exact R|].
      split; [constructor; assumption|]. split; [intros X; constructor; [reflexivity|auto]|]. split; [exact Fi|].
      rewrite S, <- app_assoc. f_equal. unfold handed. cbn [flat_map snd]. rewrite map_app. reflexivity.
    + injection H as <- <-. exists [(qb_deref q, Err u)], b1, (concat s1).
      split; [econstructor; [exact D|exact A|exact P|discriminate|discriminate]|]. split; [cbn [map fst flat_map]; rewrite app_nil_r; exact R|].
      split; [constructor; [exact B1|constructor]|]. split; [intros [res X]; discriminate X|]. split; [intros res X; discriminate X|].
      cbn. rewrite app_nil_r. reflexivity.
    + injection H as <- <-. exists [], b, (concat segs). rewrite !app_nil_r. split; [exact D|]. split; [reflexivity|]. split; [constructor|].
      split; [constructor|]. split; [intros res X; discriminate X|reflexivity].
    + injection H as <- <-. exists [], b, (concat segs). rewrite !app_nil_r. split; [exact D|]. split; [reflexivity|]. split; [constructor|].
      split; [constructor|]. split; [intros res X; discriminate X|reflexivity].
Qed.
Lemma drive_terminates dbg fuel : forall b segs sent tr0, is_bytes (concat segs) -> Calls dbg builder_init tr0 b -> Forall (fun c => is_bytes (fst c)) tr0 ->
  (10 <= length (accepted tr0) + fuel)%nat -> fst (drive dbg fuel b segs sent) <> Loop.
Proof.
  induction fuel as [|fuel IH]; intros b segs sent tr0 B C F L; cbn [drive]; pose proof (inv_pending _ _ _ (calls_inv _ _ _ C F)) as I;
    destruct (awaiting_responses b) eqn:A; try (cbn [fst]; unfold finish_proof; destruct (_ || _); discriminate).
  - apply awaiting_spec in A. unfold len in I. lia.
  - destruct (read_response segs) as [[q s1]|] eqn:R; [|discriminate].
    apply read_response_some in R; [|exact B]. destruct R as [R _]. rewrite R in B. apply is_bytes_app in B. destruct B as [B1 B2].
    unfold frame in B1. apply is_bytes_app in B1. destruct B1 as [_ B1].
    pose proof (process_panic dbg b (qb_deref q) B1) as [_ PL]. { apply awaiting_spec in A. tauto. }
    destruct (process_response dbg b (qb_deref q)) as [[qs|u| |] b1] eqn:P; try discriminate; [|contradiction].
    apply (IH b1 s1 _ (tr0 ++ [(qb_deref q, Ok qs)])); [exact B2| | |].
    + econstructor; [exact C|exact P|discriminate|discriminate].
    + apply Forall_app. split; [exact F|]. constructor; [exact B1|constructor].
    + rewrite accepted_snoc, app_length. cbn. lia.
Qed.
Lemma build_terminates dbg n ty segs : name_try_from n = Some n -> ty < 65536 -> is_bytes (concat segs) -> fst (build_proof dbg 10 n ty segs) <> Loop.
Proof.
  intros V T B. unfold build_proof, builder_new. destruct (build_query_spec n ty V T) as (q & -> & _). cbn [obind].
  apply (drive_terminates _ _ _ _ _ []); [exact B|constructor|constructor|cbn; lia].
Qed.
Lemma build_proof_sound dbg fuel n ty segs proof ttl sent : name_try_from n = Some n -> ty < 65536 -> is_bytes (concat segs) ->
  build_proof dbg fuel n ty segs = (Ok (proof, ttl), sent) ->
  exists ms itemss rest, concat segs = flat_map frame ms ++ rest /\ (length ms <= 10)%nat /\ Forall2 (Response (negb dbg)) ms itemss /\
    proof = write_all (concat itemss) /\ is_min ttl (map snd (concat itemss)) /\
    (forall dbg', Forall wf_rr (map fst (concat itemss)) -> parse_rr_stream dbg' proof = Ok (map fst (concat itemss))).
Proof.
  intros V T B H. unfold build_proof in H. destruct (builder_new n ty) as [[b0 q0]| | |] eqn:N0; try discriminate H.
  destruct (drive_sound _ _ _ _ _ _ _ B H [] b0 (Driven_nil _ _)) as (tr & b' & rest & D & E & F & AO & Fi & S). cbn [app] in *.
  specialize (AO (ex_intro _ _ eq_refl)). specialize (Fi _ eq_refl). destruct Fi as [Fi _].
  pose proof (driven_bound _ _ _ _ _ _ _ N0 D F) as L. apply driven_calls in D.
  destruct (finished_items _ _ _ _ _ _ _ _ _ N0 D F Fi AO) as (its & R & P & M & Hd).
  assert (Acc : accepted tr = map fst tr).
  { unfold accepted. f_equal. clear -AO. induction AO as [|c t H A IH]; [reflexivity|]. cbn [filter]. rewrite H, IH. reflexivity. }
  rewrite Acc in L. exists (map fst tr), its, rest. split; [exact E|]. split; [exact L|]. split; [exact R|]. split; [exact P|]. split; [exact M|].
  intros dbg' W. rewrite P. apply write_parse_stream. apply Forall_forall. intros [r t] I. rewrite Forall_forall in W, Hd. split.
  - apply W. apply in_map_iff. exists (r, t). auto.
  - apply Hd in I. apply I.
Qed.

(** ** Responses *)
Lemma process_accepts dbg b m : is_bytes m -> pb_pending b <> 0 ->
  ((exists qs, fst (process_response dbg b m) = Ok qs) <->
   exists items, Response (negb dbg) m items /\ (dbg = true -> Forall (fun rt => ~ oversized (fst rt)) items)).
Proof.
  intros B P. split.
  - intros (qs & H). destruct (process_response dbg b m) as [r b'] eqn:E. cbn [fst] in H. subst r.
    destruct (process_ok _ _ _ _ _ B E) as (items & _ & _ & R & NO & _). exists items. split; [exact R|]. intros D. specialize (NO D).
    pose proof R as (f & ans & auth & [f0 ex nb n qty qcl ab ans0 ub auth0 rest Em Nn R1 R2] & _ & _ & _ & _ & _ & _ & ->).
    rewrite Em in B. do 9 (apply is_bytes_app in B; destruct B as [_ B]). apply is_bytes_app in B. destruct B as [B1 B]. apply is_bytes_app in B. destruct B as [B2 _].
    assert (G : forall bb l, Records (negb dbg) m bb l -> is_bytes bb -> forall rt, In rt l -> write_data_overflows (fst rt) = false -> ~ oversized (fst rt)).
    { clear. intros bb l R. induction R as [|rec r t bb l Re R IH]; intros B rt I O; [contradiction|]. apply is_bytes_app in B. destruct B as [B1 B2].
      destruct I as [<-|I]; [|eapply IH; eauto]. cbn [fst] in *. intros X. apply (record_overflow _ _ _ _ _ Re B1) in X. congruence. }
    rewrite Forall_forall in NO. apply Forall_forall. intros rt I. specialize (NO rt I). unfold contribution in I. apply in_app_iff in I. destruct I as [I|I].
    + exact (G ab ans0 R1 B1 rt I NO).
    + apply filter_In in I. destruct I as [I _]. exact (G ub auth0 R2 B2 rt I NO).
  - intros (items & R & NO).
    assert (O : no_overflow dbg items).
    { intros D. specialize (NO D). pose proof R as (f & ans & auth & [f0 ex nb n qty qcl ab ans0 ub auth0 rest Em Nn R1 R2] & _ & _ & _ & _ & _ & _ & ->).
      pose proof B as B'. rewrite Em in B'. do 9 (apply is_bytes_app in B'; destruct B' as [_ B']). apply is_bytes_app in B'. destruct B' as [B1 B']. apply is_bytes_app in B'. destruct B' as [B2 _].
      assert (G : forall bb l, Records (negb dbg) m bb l -> is_bytes bb -> forall rt, In rt l -> ~ oversized (fst rt) -> write_data_overflows (fst rt) = false).
      { clear. intros bb l R. induction R as [|rec r t bb l Re R IH]; intros B rt I O; [contradiction|]. apply is_bytes_app in B. destruct B as [B1 B2].
        destruct I as [<-|I]; [|eapply IH; eauto]. cbn [fst] in *. destruct (write_data_overflows r) eqn:X; [|reflexivity]. exfalso. apply O.
        apply (record_overflow _ _ _ _ _ Re B1). exact X. }
      rewrite Forall_forall in NO. apply Forall_forall. intros rt I. specialize (NO rt I). unfold contribution in I. apply in_app_iff in I. destruct I as [I|I].
      + exact (G ab ans0 R1 B1 rt I NO).
      + apply filter_In in I. destruct I as [I _]. exact (G ub auth0 R2 B2 rt I NO). }
    pose proof (handle_complete dbg m items (pb_proof b) [] (proj1 (is_bytes_ok m) B) R O) as H.
    unfold process_response. apply N.eqb_neq in P. rewrite P, H. destruct (response_held _ _ _ R B) as [Hd _].
    match goal with |- context [request_keys _ ?b1 []] => destruct (request_total items b1 [] Hd) as (qs & b2 & ->) end. cbn [fst]. eauto.
Qed.
Lemma process_contributes dbg b m qs b' : is_bytes m -> process_response dbg b m = (Ok qs, b') ->
  exists items, Response (negb dbg) m items /\ pb_proof b' = pb_proof b ++ flat_map (fun rt => write_rr (fst rt) (snd rt)) items.
Proof. intros B E. destruct (process_ok _ _ _ _ _ B E) as (items & new & qs' & R & _ & _ & -> & _). exists items. split; [exact R|reflexivity]. Qed.
