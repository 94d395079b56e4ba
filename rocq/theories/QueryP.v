(** Lemmas about [build_query] and [handle_response]. *)
From Verif Require Import Base BaseP NameM NameSpec NameP WireM WireSpec WireP RRM SerM RecSpec RecP RecP2 HeldP ValSpec ValP ResolveP QueryM QBufP QuerySpec.
From Coq Require Import Lia Arith.
Local Open Scope N_scope.

(** ** Queries *)
Lemma write_name_labels n ls : valid_name n -> LabelsOf n ls -> write_name n = wire_name ls.
Proof.
  intros V (E & F & NR). apply valid_name_spec in V. destruct V as [_ V]. destruct ls as [|a ls].
  - rewrite E. reflexivity.
  - rewrite E in *. cbn [dotted] in *. apply write_name_dots; auto. discriminate.
Qed.
Lemma wire_labels_length ls : length (wire_labels ls) = length (dots ls).
Proof. symmetry. apply dots_octets. Qed.
Lemma wire_name_length n ls : valid_name n -> LabelsOf n ls -> (length (wire_name ls) <= 256)%nat.
Proof.
  intros V (E & F & NR). apply valid_name_spec in V. destruct V as [(ls' & _ & E' & _ & L) _]. destruct ls as [|a ls].
  - cbn. lia.
  - unfold wire_name. rewrite app_length, wire_labels_length. cbn [dotted] in E. rewrite E in L. cbn [length]. lia.
Qed.

Lemma build_query_spec_at lim n ty : valid_name n -> ty < 65536 ->
  exists q, build_query_at lim n ty = Ok q /\ Query n ty (deref_at lim q) /\ (length (deref_at lim q) <= 283)%nat.
Proof.
  intros V T. destruct (valid_labels n V) as (ls & L & _). pose proof (write_name_labels n ls V L) as W.
  pose proof (wire_name_length n ls V L) as WL. unfold build_query_at.
  match goal with |- context [extends_at lim (new_zeroed_at lim 0) ?s] => set (sls := s) end.
  assert (C : concat sls = [0; 0; 1; 32; 0; 1; 0; 0; 0; 0; 0; 1] ++ (wire_name ls ++ u16 ty ++ [0; 1]) ++ [0; 0; 41; 0; 0; 0; 0; 128; 0; 0; 0]).
  { unfold sls. rewrite !concat_app. rewrite (be16_u16 ty) by exact T. fold (write_name n). rewrite W. rewrite <- !app_assoc. reflexivity. }
  assert (CL : (length (concat sls) <= 283)%nat).
  { rewrite C. rewrite !app_length. cbn [length u16]. lia. }
  destruct (buffer_contents_at lim 0 sls) as (q & E & D & _ & _); [lia|unfold len; lia|].
  cbn [N.to_nat repeat app] in D. exists q. split; [exact E|]. rewrite D. split; [|exact CL]. exists ls. auto.
Qed.
Lemma build_query_spec n ty : valid_name n -> ty < 65536 ->
  exists q, build_query n ty = Ok q /\ Query n ty (qb_deref q) /\ (length (qb_deref q) <= 283)%nat.
Proof. exact (build_query_spec_at STACK_BUF_LIMIT n ty). Qed.
Lemma query_unique n ty b b' : Query n ty b -> Query n ty b' -> b = b'.
Proof. intros (ls & L & ->) (ls' & L' & ->). rewrite (labelsof_inj _ _ _ L L'). reflexivity. Qed.

(** ** Flags *)
Definition flags_test (f : N) : bool :=
  negb (N.land f 32768 =? 0) && (N.land f 31239 =? 0) && negb (N.land f 32 =? 0).
Definition flags_want (f : N) : bool :=
  (flag_qr f =? 1) && (flag_opcode f =? 0) && (flag_tc f =? 0) && (flag_ad f =? 1) && ((flag_rcode f =? 0) || (flag_rcode f =? 8)).
Definition range (n : N) : list N := N.recursion [] (fun i l => i :: l) n.
Lemma in_range x n : x < n -> In x (range n).
Proof.
  revert x. induction n as [|n IH] using N.peano_ind; intros x L; [lia|].
  unfold range in *. rewrite N.recursion_succ with (Aeq := eq); [|reflexivity|intros ? ? -> ? ? ->; reflexivity].
  destruct (N.eq_dec x n) as [->|Ne]; [left; reflexivity|right; apply IH; lia].
Qed.
Lemma flags_all : forallb (fun f => Bool.eqb (flags_test f) (flags_want f)) (range 65536) = true.
Proof. vm_compute. reflexivity. Qed.
Lemma flags_spec f : f < 65536 -> flags_test f = flags_want f.
Proof.
  intros L. pose proof flags_all as H. rewrite forallb_forall in H. apply eqb_prop. apply H. apply in_range. exact L.
Qed.

(** ** Sections *)
Definition min_ttl (l : list (RR * N)) (t0 : N) : N := fold_left N.min (map snd l) t0.
Definition no_overflow (dbg : bool) (l : list (RR * N)) : Prop :=
  dbg = true -> Forall (fun rt => write_data_overflows (fst rt) = false) l.

Lemma section_sound dbg resp keep n : forall read t0 p ns ttl rest hs', bytes_ok read = true ->
  read_section dbg resp keep n read t0 (p, ns) = (Ok (ttl, rest), hs') ->
  exists b l, read = b ++ rest /\ Records (negb dbg) resp b l /\ length l = n /\
    let kept := filter (fun rt => keep (fst rt)) l in
    hs' = (p ++ write_all kept, ns ++ flat_map signer_of kept) /\ ttl = min_ttl kept t0 /\ no_overflow dbg kept.
Proof.
  induction n as [|n IH]; intros read t0 p ns ttl rest hs' B H; cbn [read_section] in H.
  - injection H as <- <- <-. exists [], []. cbn. rewrite !app_nil_r. repeat split; try constructor.
  - destruct (parse_wire_packet_rr dbg read resp) as [[[r t] read']| | |] eqn:E; try discriminate H.
    apply parse_rr_sound in E; [|exact B]. destruct E as (rec & -> & Re). apply bytes_ok_app_inv in B. destruct B as [_ B].
    destruct (keep r) eqn:K.
    + unfold emit in H. destruct (dbg && write_data_overflows r) eqn:O; [discriminate H|]. cbn [fst snd] in H.
      apply IH in H; [|exact B]. destruct H as (b & l & -> & Rs & Ln & Hs & T & NO).
      exists (rec ++ b), ((r, t) :: l). rewrite app_assoc. split; [reflexivity|]. split; [constructor; assumption|].
      split; [cbn [length]; lia|]. cbn [filter fst]. rewrite K. cbn zeta. split; [|split].
      * rewrite Hs. unfold write_all. cbn [flat_map fst snd]. rewrite <- !app_assoc. unfold signer_of at 2. cbn [fst]. reflexivity.
      * rewrite T. reflexivity.
      * intros D. constructor; [|exact (NO D)]. cbn [fst]. destruct dbg; [exact O|discriminate D].
    + apply IH in H; [|exact B]. destruct H as (b & l & -> & Rs & Ln & Hs & T & NO).
      exists (rec ++ b), ((r, t) :: l). rewrite app_assoc. split; [reflexivity|]. split; [constructor; assumption|].
      split; [cbn [length]; lia|]. cbn [filter fst]. rewrite K. auto.
Qed.
Lemma section_complete dbg resp keep b l : Records (negb dbg) resp b l -> forall t0 p ns rest,
  let kept := filter (fun rt => keep (fst rt)) l in no_overflow dbg kept ->
  read_section dbg resp keep (length l) (b ++ rest) t0 (p, ns) =
    (Ok (min_ttl kept t0, rest), (p ++ write_all kept, ns ++ flat_map signer_of kept)).
Proof.
  intros R. induction R as [|rec r t b l Re R IH]; intros t0 p ns rest kept NO; subst kept.
  - cbn. rewrite !app_nil_r. reflexivity.
  - cbn [length read_section]. rewrite <- app_assoc. rewrite (parse_rr_complete _ _ _ _ _ _ Re).
    cbn [filter fst] in *. destruct (keep r) eqn:K.
    + unfold emit. replace (dbg && write_data_overflows r) with false.
      2: { destruct dbg; [|reflexivity]. specialize (NO eq_refl). inversion NO; subst. cbn [fst] in *. symmetry. assumption. }
      cbn [fst snd]. rewrite IH by (intros D; specialize (NO D); inversion NO; assumption).
      unfold write_all. cbn [flat_map fst snd]. rewrite <- !app_assoc. unfold signer_of at 3. cbn [fst]. reflexivity.
    + apply IH. exact NO.
Qed.
Lemma records_unique lax pkt b l : Records lax pkt b l -> forall b' l' rest rest', Records lax pkt b' l' ->
  b ++ rest = b' ++ rest' -> length l = length l' -> l = l' /\ b = b' /\ rest = rest'.
Proof.
  intros R. induction R as [|rec r t b l Re R IH]; intros b' l' rest rest' R' E L.
  - destruct l'; [|discriminate L]. inversion R'; subst. auto.
  - destruct l' as [|x l']; [discriminate L|]. inversion R' as [|rec' r' t' b'' l'' Re' R'']; subst.
    rewrite <- !app_assoc in E. replace lax with (negb (negb lax)) in * by apply negb_involutive.
    pose proof (parse_rr_complete _ _ _ _ _ (b ++ rest) Re) as P. pose proof (parse_rr_complete _ _ _ _ _ (b'' ++ rest') Re') as P'.
    rewrite E in P. rewrite P in P'. injection P' as <- <- E2. destruct (IH b'' l' rest rest' R'' E2) as (-> & -> & ->); [cbn in L; lia|].
    apply app_inv_tail in E. subst. auto.
Qed.
Lemma u16_inj a b : u16 a = u16 b -> a = b.
Proof. unfold u16. intros E. injection E as E1 E2. rewrite (N.div_mod a 256), (N.div_mod b 256) by lia. congruence. Qed.
Lemma u16_app_inv a b x y : u16 a ++ x = u16 b ++ y -> a = b /\ x = y.
Proof. intros E. apply app_inv_len in E; [|reflexivity]. destruct E as [E ->]. apply u16_inj in E. auto. Qed.
Lemma namein_unique pkt b n b' n' x x' : NameIn pkt b n -> NameIn pkt b' n' -> b ++ x = b' ++ x' -> x = x'.
Proof.
  intros N1 N2 E. pose proof (read_name_app pkt b n x N1) as R1. pose proof (read_name_app pkt b' n' x' N2) as R2.
  rewrite E in R1. rewrite R1 in R2. injection R2 as _ R2. exact R2.
Qed.
Lemma message_unique lax m f ans auth f' ans' auth' : Message lax m f ans auth -> Message lax m f' ans' auth' -> f = f' /\ ans = ans' /\ auth = auth'.
Proof.
  intros [f0 ex nb n qty qcl ab ans0 ub auth0 rest E N1 R1 R2] [f1 ex' nb' n' qty' qcl' ab' ans1 ub' auth1 rest' E' N1' R1' R2'].
  rewrite E in E' at 1. repeat (apply u16_app_inv in E'; destruct E' as [? E']).
  assert (E2 := namein_unique _ _ _ _ _ _ _ N1 N1' E'). repeat (apply u16_app_inv in E2; destruct E2 as [? E2]).
  destruct (records_unique _ _ _ _ R1 _ _ _ _ R1' E2) as (-> & -> & E3); [lia|].
  destruct (records_unique _ _ _ _ R2 _ _ _ _ R2' E3) as (-> & -> & E4); [lia|]. auto.
Qed.
Lemma response_unique lax m i i' : Response lax m i -> Response lax m i' -> i = i'.
Proof.
  intros (f & ans & auth & M & _ & _ & _ & _ & _ & _ & ->) (f' & ans' & auth' & M' & _ & _ & _ & _ & _ & _ & ->).
  destruct (message_unique _ _ _ _ _ _ _ _ M M') as (_ & -> & ->). reflexivity.
Qed.

(** ** Headers *)
Lemma header_sound resp an au rest : bytes_ok resp = true -> read_header resp = Ok (an, au, rest) ->
  exists f ex nb n qty qcl, resp = u16 0 ++ u16 f ++ u16 1 ++ u16 an ++ u16 au ++ u16 ex ++ nb ++ u16 qty ++ u16 qcl ++ rest /\
    NameIn resp nb n /\ f < 65536 /\ flags_test f = true /\ an <> 0.
Proof.
  intros B H. unfold read_header in H.
  apply obind_ok in H as ([t r1] & H1 & H). pose proof (read_u16_inv _ _ _ B H1) as E1.
  rewrite E1 in B. apply bytes_ok_app_inv in B as [B0 B]. destruct (N.eqb_spec t TXID) as [->|]; cbn [negb] in H; [|discriminate].
  apply obind_ok in H as ([f r2] & H2 & H). pose proof (read_u16_inv _ _ _ B H2) as E2.
  rewrite E2 in B. apply bytes_ok_app_inv in B as [Bf B].
  destruct (N.land f 32768 =? 0) eqn:F1; [discriminate|]. destruct (N.land f 31239 =? 0) eqn:F2; cbn [negb] in H; [|discriminate].
  destruct (N.land f 32 =? 0) eqn:F3; [discriminate|].
  apply obind_ok in H as ([q r3] & H3 & H). pose proof (read_u16_inv _ _ _ B H3) as E3.
  rewrite E3 in B. apply bytes_ok_app_inv in B as [_ B]. destruct (N.eqb_spec q 1) as [->|]; cbn [negb] in H; [|discriminate].
  apply obind_ok in H as ([a r4] & H4 & H). pose proof (read_u16_inv _ _ _ B H4) as E4.
  rewrite E4 in B. apply bytes_ok_app_inv in B as [_ B]. destruct (N.eqb_spec a 0) as [|Na]; [discriminate|].
  apply obind_ok in H as ([u r5] & H5 & H). pose proof (read_u16_inv _ _ _ B H5) as E5.
  rewrite E5 in B. apply bytes_ok_app_inv in B as [_ B].
  apply obind_ok in H as ([x r6] & H6 & H). pose proof (read_u16_inv _ _ _ B H6) as E6.
  rewrite E6 in B. apply bytes_ok_app_inv in B as [_ B].
  apply obind_ok in H as (r7 & H7 & H). injection H as <- <- <-.
  change (N.to_nat 1) with 1%nat in H7. cbn [skip_questions] in H7.
  apply obind_ok in H7 as ([n r8] & H7 & H8). apply read_name_in in H7 as (nb & E7 & Nn).
  rewrite E7 in B. apply bytes_ok_app_inv in B as [_ B].
  apply obind_ok in H8 as ([qty r9] & H8 & H9). pose proof (read_u16_inv _ _ _ B H8) as E8.
  rewrite E8 in B. apply bytes_ok_app_inv in B as [_ B].
  apply obind_ok in H9 as ([qcl r10] & H9 & H10). pose proof (read_u16_inv _ _ _ B H9) as E9. injection H10 as <-.
  exists f, x, nb, n, qty, qcl. split; [|split; [exact Nn|split; [|split; [|exact Na]]]].
  - rewrite E1, E2, E3, E4, E5, E6, E7, E8, E9. reflexivity.
  - apply u16_bytes. apply is_bytes_ok. exact Bf.
  - unfold flags_test. rewrite F1, F2, F3. reflexivity.
Qed.
Lemma header_complete resp f ex nb n qty qcl an au rest :
  resp = u16 0 ++ u16 f ++ u16 1 ++ u16 an ++ u16 au ++ u16 ex ++ nb ++ u16 qty ++ u16 qcl ++ rest ->
  NameIn resp nb n -> flags_test f = true -> an <> 0 -> read_header resp = Ok (an, au, rest).
Proof.
  intros E Nn F Na. unfold read_header. rewrite E at 1.
  rewrite read_u16_app. cbn [obind]. change (negb (0 =? TXID)) with false. cbn iota.
  rewrite read_u16_app. cbn [obind]. unfold flags_test in F. apply andb_true_iff in F as [F F3]. apply andb_true_iff in F as [F1 F2].
  apply negb_true_iff in F1, F3. rewrite F1, F2, F3. cbn [negb].
  rewrite read_u16_app. cbn [obind]. change (negb (1 =? 1)) with false. cbn iota.
  rewrite read_u16_app. cbn [obind]. destruct (N.eqb_spec an 0); [contradiction|].
  rewrite read_u16_app. cbn [obind]. rewrite read_u16_app. cbn [obind]. change (N.to_nat 1) with 1%nat. cbn [skip_questions].
  rewrite (read_name_app _ _ _ _ Nn). cbn [obind]. rewrite read_u16_app. cbn [obind]. rewrite read_u16_app. reflexivity.
Qed.

(** ** Responses *)
Lemma flags_want_iff f : flags_want f = true <->
  flag_qr f = 1 /\ flag_opcode f = 0 /\ flag_tc f = 0 /\ flag_ad f = 1 /\ (flag_rcode f = 0 \/ flag_rcode f = 8).
Proof. unfold flags_want. rewrite !andb_true_iff, orb_true_iff, !N.eqb_eq. tauto. Qed.
Lemma filter_true {A} (l : list A) : filter (fun _ => true) l = l.
Proof. induction l; cbn; congruence. Qed.
Lemma min_ttl_app a b t : min_ttl (a ++ b) t = min_ttl b (min_ttl a t).
Proof. unfold min_ttl. rewrite map_app, fold_left_app. reflexivity. Qed.
Lemma denial_kept : forall r, authority_kept r = denial_record r.
Proof. intros []; reflexivity. Qed.

Lemma handle_sound dbg resp p ns ttl hs' : bytes_ok resp = true -> handle_response dbg resp (p, ns) = (Ok ttl, hs') ->
  exists items, Response (negb dbg) resp items /\ hs' = (p ++ write_all items, ns ++ flat_map signer_of items) /\
    ttl = min_ttl items (2 ^ 32 - 1) /\ no_overflow dbg items.
Proof.
  intros B H. unfold handle_response in H. destruct (read_header resp) as [[[an au] read]| | |] eqn:Hh; try discriminate H.
  pose proof Hh as Hh'. apply header_sound in Hh'; [|exact B]. destruct Hh' as (f & ex & nb & n & qty & qcl & E & Nn & Lf & F & Na).
  assert (Br : bytes_ok read = true).
  { rewrite E in B. repeat (apply bytes_ok_app_inv in B; destruct B as [_ B]). exact B. }
  destruct (read_section dbg resp (fun _ => true) (N.to_nat an) read (2 ^ 32 - 1) (p, ns)) as [[[t1 r1]| | |] [p1 ns1]] eqn:S1; try discriminate H.
  apply section_sound in S1; [|exact Br]. destruct S1 as (b & l & -> & R1 & L1 & Hs1 & T1 & O1).
  rewrite filter_true in *. injection Hs1 as -> ->.
  destruct (read_section dbg resp authority_kept (N.to_nat au) r1 t1 _) as [[[t2 r2]| | |] hs2] eqn:S2; try discriminate H.
  apply bytes_ok_app_inv in Br. apply section_sound in S2; [|apply Br]. destruct S2 as (b' & l' & -> & R2 & L2 & Hs2 & T2 & O2).
  injection H as <- <-.
  rewrite (filter_ext _ (fun rt => denial_record (fst rt))) in * by (intros; apply denial_kept).
  exists (contribution l l'). split; [|split; [|split]].
  - exists f, l, l'. split.
    + econstructor; [|exact Nn|exact R1|exact R2]. rewrite E at 1. rewrite L1, L2, !N2Nat.id. rewrite <- ?app_assoc. reflexivity.
    + rewrite flags_spec in F by exact Lf. apply flags_want_iff in F.
      destruct F as (F1 & F2 & F3 & F4 & F5). repeat (split; [assumption|]). split; [|reflexivity].
      intros ->. cbn in L1. lia.
  - rewrite Hs2. unfold contribution, write_all. rewrite !flat_map_app, !app_assoc. reflexivity.
  - rewrite T2, T1. unfold contribution. rewrite min_ttl_app. reflexivity.
  - intros D. unfold contribution. apply Forall_app. split; [exact (O1 D)|exact (O2 D)].
Qed.
Lemma handle_complete dbg resp items p ns : bytes_ok resp = true -> Response (negb dbg) resp items -> no_overflow dbg items ->
  handle_response dbg resp (p, ns) = (Ok (min_ttl items (2 ^ 32 - 1)), (p ++ write_all items, ns ++ flat_map signer_of items)).
Proof.
  intros B (f & ans & auth & [f0 ex nb n qty qcl ab ans0 ub auth0 rest E Nn R1 R2] & F1 & F2 & F3 & F4 & F5 & NE & ->) NO.
  assert (F : f0 < 65536). { rewrite E in B. apply bytes_ok_app_inv in B as [_ B]. apply bytes_ok_app_inv in B as [B _]. apply u16_bytes, is_bytes_ok. exact B. }
  unfold handle_response. erewrite header_complete; [|exact E|exact Nn| |].
  2: { rewrite flags_spec by exact F. apply flags_want_iff. auto. }
  2: { destruct ans0; [contradiction|]. cbn [length]. lia. }
  rewrite !Nat2N.id. unfold contribution in *.
  assert (O1 : no_overflow dbg ans0) by (intros D; specialize (NO D); apply Forall_app in NO; tauto).
  assert (O2 : no_overflow dbg (filter (fun rt => denial_record (fst rt)) auth0)) by (intros D; specialize (NO D); apply Forall_app in NO; tauto).
  rewrite (section_complete dbg resp (fun _ => true) ab ans0 R1) by (rewrite filter_true; exact O1). rewrite filter_true.
  rewrite (section_complete dbg resp authority_kept ub auth0 R2).
  - rewrite (filter_ext (fun rt => authority_kept (fst rt)) (fun rt => denial_record (fst rt))) by (intros; apply denial_kept).
    unfold write_all. rewrite min_ttl_app, !flat_map_app, !app_assoc. reflexivity.
  - rewrite (filter_ext (fun rt => authority_kept (fst rt)) (fun rt => denial_record (fst rt))) by (intros; apply denial_kept). exact O2.
Qed.

Lemma min_ttl_is_min l t0 : l <> [] -> Forall (fun rt => snd rt <= t0) l -> is_min (min_ttl l t0) (map snd l).
Proof.
  intros NE F. unfold min_ttl.
  assert (G : forall l t, (fold_left N.min l t = t \/ In (fold_left N.min l t) l) /\ fold_left N.min l t <= t /\ Forall (fun x => fold_left N.min l t <= x) l).
  { clear. induction l as [|x l IH]; intros t; cbn [fold_left].
    - repeat split; auto; lia.
    - destruct (IH (N.min t x)) as (A & B & C). split; [|split; [lia|constructor; [lia|exact C]]].
      destruct A as [A|A]; [|right; right; exact A]. rewrite A. destruct (N.min_spec t x) as [[_ ->]|[_ ->]]; [left; reflexivity|right; left; reflexivity]. }
  destruct (G (map snd l) t0) as (A & B & C). split; [|exact C]. destruct A as [A|A]; [|exact A].
  destruct l as [|[r t] l]; [contradiction|]. rewrite A. cbn [map snd] in *. rewrite A in C. apply Forall_inv in C. apply Forall_inv in F. cbn [snd] in *. left.
  cbn [snd]. lia.
Qed.
Lemma records_held lax pkt b l : Records lax pkt b l -> is_bytes b -> Forall (fun rt => Held (fst rt) /\ is_u32 (snd rt)) l.
Proof.
  intros R. induction R as [|rec r t b l Re R IH]; intros B; constructor.
  - apply is_bytes_app in B. eapply record_held; [exact Re|apply B].
  - apply IH. apply is_bytes_app in B. apply B.
Qed.
Lemma response_held lax m items : Response lax m items -> is_bytes m -> Forall (fun rt => Held (fst rt) /\ is_u32 (snd rt)) items /\ items <> [].
Proof.
  intros (f & ans & auth & [f0 ex nb n qty qcl ab ans0 ub auth0 rest E Nn R1 R2] & _ & _ & _ & _ & _ & NE & ->) B.
  rewrite E in B. repeat (apply is_bytes_app in B; destruct B as [? B]).
  split; [|intros X; apply app_eq_nil in X; tauto].
  apply Forall_app. split; [eapply records_held; eauto|]. apply Forall_forall. intros x I. apply filter_In in I. destruct I as [I _].
  pose proof (records_held _ _ _ _ R2 ltac:(assumption)) as F. rewrite Forall_forall in F. apply F. exact I.
Qed.
Lemma response_ttl lax m items : Response lax m items -> is_bytes m -> is_min (min_ttl items (2 ^ 32 - 1)) (map snd items).
Proof.
  intros R B. destruct (response_held _ _ _ R B) as [F NE]. apply min_ttl_is_min; [exact NE|].
  eapply Forall_impl; [|exact F]. intros a [_ H]. unfold is_u32 in H. lia.
Qed.
