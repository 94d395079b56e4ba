(** Proofs about the fuzz targets. *)
From Verif Require Import Base BaseP NameM NameSpec WireM WireSpec RRM SerM RecSpec HeldP ValSpec ValM QueryM QuerySpec Base32M QBufP QueryP QueryP2 QueryP3 QueryP4
  ValP4 ValP5 RecP2 FuzzM FuzzSpec.
From Coq Require Import Lia String PeanoNat.
Local Open Scope N_scope.

(** ** The builder *)
Lemma no_frame_short s : (List.length s < 2)%nat -> ~ exists m r, length_of m <= 65535 /\ s = frame m ++ r.
Proof. intros L (m & r & _ & ->). cbn in L. lia. Qed.

Lemma next_frame s : is_bytes s ->
  match read_u16 s with
  | Ok (l, s1) => if len s1 <? l then ~ exists m r, length_of m <= 65535 /\ s = frame m ++ r
                  else exists m, length_of m <= 65535 /\ s = frame m ++ dropN l s1 /\ takeN l s1 = m /\
                         deref_at FUZZ_BUF_LIMIT (fill_at FUZZ_BUF_LIMIT (new_zeroed_at FUZZ_BUF_LIMIT l) (takeN l s1)) = m
  | Err _ => ~ exists m r, length_of m <= 65535 /\ s = frame m ++ r
  | _ => False
  end.
Proof.
  intros B. destruct s as [|a [|b t]]; cbn [read_u16]; [apply no_frame_short; cbn; lia..|].
  assert (Ba : a < 256 /\ b < 256). { inversion B as [|? ? X Y]; subst. inversion Y; subst. split; assumption. }
  destruct (N.ltb_spec (len t) (a * 256 + b)) as [L|L].
  - intros (m & r & Lm & E). unfold frame, u16 in E. cbn [app] in E. injection E as Ea Eb Et.
    assert (X : a * 256 + b = length_of m).
    { rewrite Ea, Eb. pose proof (N.div_mod (length_of m) 256). lia. }
    rewrite Et, len_app in L. change (len m) with (length_of m) in L. lia.
  - exists (takeN (a * 256 + b) t). set (l := a * 256 + b) in *.
    assert (Lm : len (takeN l t) = l) by (rewrite len_takeN_min; lia).
    split; [change (length_of (takeN l t)) with (len (takeN l t)); lia|]. split; [|split; [reflexivity|]].
    + unfold frame. change (length_of (takeN l t)) with (len (takeN l t)). rewrite Lm. unfold l, u16. cbn [app].
      f_equal; [|f_equal].
      * rewrite N.add_comm, N.div_add by lia. rewrite N.div_small by lia. lia.
      * rewrite N.add_comm, N.mod_add by lia. rewrite N.mod_small by lia. lia.
      * rewrite <- (takeN_dropN (a * 256 + b) t) at 1. reflexivity.
    + apply qrep_deref. eapply qrep_fill; [apply qrep_new; lia|]. rewrite QBufP.len_repeat. exact Lm.
Qed.

Lemma frame_unique m m' r r' : length_of m <= 65535 -> length_of m' <= 65535 -> frame m ++ r = frame m' ++ r' -> m = m' /\ r = r'.
Proof.
  intros L L' E. destruct (read_frame [frame m ++ r] m r L) as (q & s & R & D & S); [cbn; rewrite app_nil_r; reflexivity|].
  destruct (read_frame [frame m ++ r] m' r' L') as (q' & s' & R' & D' & S'); [cbn; rewrite app_nil_r; exact E|].
  rewrite R in R'. injection R' as <- <-. split; congruence.
Qed.

(** One iteration. *)
Lemma fuzz_step dbg f b m rest : is_bytes (frame m ++ rest) -> length_of m <= 65535 -> awaiting_responses b = true ->
  fuzz_loop dbg (S f) b (frame m ++ rest) =
  match process_response dbg b m with
  | (Ok _, b') | (Err _, b') => fuzz_loop dbg f b' rest
  | (Panic, _) => Panic
  | (Loop, _) => Loop
  end.
Proof.
  intros B L A. cbn [fuzz_loop]. rewrite A. pose proof (next_frame _ B) as N.
  destruct (read_u16 (frame m ++ rest)) as [[l s1]| | |]; [|exfalso; apply N; eauto|contradiction..].
  destruct (len s1 <? l); [exfalso; apply N; eauto|]. destruct N as (m' & L' & E & T & D). apply frame_unique in E; [|assumption..].
  destruct E as [-> ->]. rewrite D. reflexivity.
Qed.
Lemma fuzz_stop dbg f b s : is_bytes s -> (awaiting_responses b = false \/ ~ exists m r, length_of m <= 65535 /\ s = frame m ++ r) ->
  fuzz_loop dbg (S f) b s = Ok b.
Proof.
  intros B H. cbn [fuzz_loop]. destruct (awaiting_responses b) eqn:A.
  - destruct H as [H|H]; [discriminate|]. pose proof (next_frame _ B) as N.
    destruct (read_u16 s) as [[l s1]| | |]; [|reflexivity|contradiction..].
    destruct (len s1 <? l); [reflexivity|]. destruct N as (m' & L' & E & _). exfalso. eauto.
  - unfold dropped. destruct (finish_proof b) eqn:F; try reflexivity; unfold finish_proof in F; destruct (_ || _); discriminate.
Qed.
Lemma frame_len m : (2 <= List.length (frame m))%nat.
Proof. cbn. lia. Qed.

(** The calls of any [Feeds] are made. *)
Lemma fuzz_follow dbg tr b : Driven dbg builder_init tr b -> forall fuel rest,
  is_bytes (flat_map frame (map fst tr) ++ rest) -> Forall (fun c => length_of (fst c) <= 65535) tr ->
  (List.length (flat_map frame (map fst tr) ++ rest) < fuel)%nat ->
  exists f, (List.length rest < f)%nat /\ fuzz_loop dbg fuel builder_init (flat_map frame (map fst tr) ++ rest) = fuzz_loop dbg f b rest.
Proof.
  intros D. remember builder_init as b0 eqn:E0. revert E0.
  induction D as [b|b tr b1 m r b2 D IH A P NP NL]; intros E0 fuel rest B F L; subst.
  - exists fuel. cbn in *. auto.
  - rewrite map_app, flat_map_app in *. cbn [map flat_map fst] in *. rewrite app_nil_r, <- app_assoc in *.
    apply Forall_app in F. destruct F as [F F1]. inversion F1 as [|? ? Lm _]; subst. cbn [fst] in Lm.
    destruct (IH eq_refl fuel _ B F L) as (f & Lf & ->). pose proof (frame_len m). rewrite app_length in Lf. destruct f as [|f]; [lia|].
    exists f. split; [lia|]. apply is_bytes_app in B. destruct B as [_ B]. rewrite fuzz_step by assumption. rewrite P. destruct r; congruence.
Qed.
(** Every run makes the calls of some [Feeds]. *)
Lemma fuzz_run dbg : forall fuel tr b rest, Driven dbg builder_init tr b -> Forall (fun c => length_of (fst c) <= 65535) tr ->
  is_bytes rest -> (List.length rest < fuel)%nat ->
  exists tr' b' rest', Driven dbg builder_init (tr ++ tr') b' /\ rest = flat_map frame (map fst tr') ++ rest' /\
    Forall (fun c => length_of (fst c) <= 65535) (tr ++ tr') /\
    ((awaiting_responses b' = false \/ ~ exists m r, length_of m <= 65535 /\ rest' = frame m ++ r) \/
     (awaiting_responses b' = true /\ exists m r, length_of m <= 65535 /\ rest' = frame m ++ r /\ BadResponse dbg m)).
Proof.
  induction fuel as [|fuel IH]; intros tr b rest D F B L; [lia|].
  destruct (awaiting_responses b) eqn:A.
  2: { exists [], b, rest. rewrite app_nil_r. cbn. auto 8. }
  assert (X : (exists m r, length_of m <= 65535 /\ rest = frame m ++ r) \/ ~ exists m r, length_of m <= 65535 /\ rest = frame m ++ r).
  { pose proof (next_frame _ B) as N. destruct (read_u16 rest) as [[l s1]| | |]; [|auto|contradiction..].
    destruct (len s1 <? l); [auto|]. destruct N as (m' & L' & E & _). eauto. }
  destruct X as [(m & r & Lm & E)|X].
  2: { exists [], b, rest. rewrite app_nil_r. cbn. auto 8. }
  assert (Bm : is_bytes m /\ is_bytes r). { rewrite E in B. apply is_bytes_app in B. destruct B as [B1 B2]. unfold frame in B1. apply is_bytes_app in B1. tauto. }
  destruct Bm as [Bm Br]. destruct (process_panic dbg b m Bm) as [PP PL]. { apply awaiting_spec in A. tauto. }
  destruct (process_response dbg b m) as [res b1] eqn:P. cbn [fst] in *.
  assert (Q : res = Panic \/ (res <> Panic /\ res <> Loop)) by (destruct res; auto; right; split; congruence).
  destruct Q as [->|[NP NL]].
  - exists [], b, rest. rewrite app_nil_r. split; [exact D|]. split; [reflexivity|]. split; [exact F|]. right. split; [exact A|].
    exists m, r. split; [exact Lm|]. split; [exact E|]. apply PP. reflexivity.
  - assert (D1 : Driven dbg builder_init (tr ++ [(m, res)]) b1) by (econstructor; eassumption).
    pose proof (frame_len m) as FL. destruct (IH _ _ r D1) as (tr' & b' & rest' & D' & E' & F' & R).
    + apply Forall_app. split; [exact F|]. constructor; [exact Lm|constructor].
    + exact Br.
    + rewrite E, app_length in L. lia.
    + rewrite <- app_assoc in D', F'. exists ((m, res) :: tr'), b', rest'. split; [exact D'|]. split; [|split; assumption].
      cbn [map fst flat_map]. rewrite <- app_assoc, <- E'. exact E.
Qed.

Lemma fuzz_start dbg fuel s : fuzz_proof_builder dbg fuel s = fuzz_loop dbg fuel builder_init s.
Proof.
  unfold fuzz_proof_builder. change (name_try_from (bs "example.com.")) with (Some (bs "example.com.")). cbv iota.
  destruct (build_query_at FUZZ_BUF_LIMIT (bs "example.com.") 16) eqn:E; vm_compute in E; try discriminate. reflexivity.
Qed.
Lemma fuzz_builder_ok dbg fuel s b : is_bytes s -> (List.length s < fuel)%nat ->
  (fuzz_proof_builder dbg fuel s = Ok b <->
   exists tr rest, Feeds dbg s tr b rest /\ (awaiting_responses b = false \/ ~ exists m r, length_of m <= 65535 /\ rest = frame m ++ r)).
Proof.
  intros B L. rewrite fuzz_start. split.
  - intros H. destruct (fuzz_run dbg fuel [] builder_init s) as (tr & b' & rest & D & E & F & R); [constructor|constructor|exact B|exact L|].
    cbn [app] in *. subst s. destruct (fuzz_follow dbg tr b' D fuel rest B F L) as (f & Lf & G). rewrite G in H. destruct f as [|f]; [lia|].
    pose proof B as B'. apply is_bytes_app in B'. destruct B' as [_ B']. destruct R as [R|(A & m & r & Lm & E & Bad)].
    + rewrite fuzz_stop in H by assumption. injection H as <-. exists tr, rest. split; [|exact R]. repeat split; assumption.
    + subst rest. rewrite fuzz_step in H by assumption. apply is_bytes_app in B'. destruct B' as [Bm _]. unfold frame in Bm. apply is_bytes_app in Bm.
      destruct (process_panic dbg b' m (proj2 Bm)) as [PP _]. { apply awaiting_spec in A. tauto. } apply PP in Bad.
      destruct (process_response dbg b' m) as [res b1]. cbn [fst] in Bad. subst res. discriminate H.
  - intros (tr & rest & (D & -> & F) & R). destruct (fuzz_follow dbg tr b D fuel rest B F L) as (f & Lf & ->). destruct f as [|f]; [lia|].
    apply is_bytes_app in B. apply fuzz_stop; tauto.
Qed.
Lemma fuzz_builder_panic dbg fuel s : is_bytes s -> (List.length s < fuel)%nat ->
  (fuzz_proof_builder dbg fuel s = Panic <->
   exists tr b m rest, Feeds dbg s tr b (frame m ++ rest) /\ awaiting_responses b = true /\ length_of m <= 65535 /\ BadResponse dbg m).
Proof.
  intros B L. rewrite fuzz_start. split.
  - intros H. destruct (fuzz_run dbg fuel [] builder_init s) as (tr & b' & rest & D & E & F & R); [constructor|constructor|exact B|exact L|].
    cbn [app] in *. subst s. destruct (fuzz_follow dbg tr b' D fuel rest B F L) as (f & Lf & G). rewrite G in H. destruct f as [|f]; [lia|].
    pose proof B as B'. apply is_bytes_app in B'. destruct B' as [_ B']. destruct R as [R|(A & m & r & Lm & E & Bad)].
    + rewrite fuzz_stop in H by assumption. discriminate H.
    + subst rest. exists tr, b', m, r. repeat split; assumption.
  - intros (tr & b & m & rest & (D & -> & F) & A & Lm & Bad). destruct (fuzz_follow dbg tr b D fuel _ B F L) as (f & Lf & ->). destruct f as [|f]; [lia|].
    apply is_bytes_app in B. destruct B as [_ B]. rewrite fuzz_step by assumption. apply is_bytes_app in B. destruct B as [Bm _]. unfold frame in Bm. apply is_bytes_app in Bm.
    destruct (process_panic dbg b m (proj2 Bm)) as [PP _]. { apply awaiting_spec in A. tauto. } apply PP in Bad.
    destruct (process_response dbg b m) as [res b1]. cbn [fst] in Bad. subst res. reflexivity.
Qed.
Lemma fuzz_builder_ends dbg fuel s : is_bytes s -> (List.length s < fuel)%nat -> fuzz_proof_builder dbg fuel s <> Loop.
Proof.
  intros B L H. destruct (fuzz_run dbg fuel [] builder_init s) as (tr & b' & rest & D & E & F & R); [constructor|constructor|exact B|exact L|]. cbn [app] in *.
  destruct R as [R|(A & m & r & Lm & Er & Bad)].
  - assert (X : fuzz_proof_builder dbg fuel s = Ok b'). { apply fuzz_builder_ok; [assumption..|]. exists tr, rest. split; [|exact R]. repeat split; assumption. } congruence.
  - assert (X : fuzz_proof_builder dbg fuel s = Panic). { apply fuzz_builder_panic; [assumption..|]. exists tr, b', m, r. subst rest. repeat split; assumption. } congruence.
Qed.

(** ** One response *)
Lemma fuzz_response_panic dbg m : is_bytes m -> (fuzz_response dbg m = Panic <-> BadResponse dbg m) /\ fuzz_response dbg m <> Loop.
Proof.
  intros B. apply is_bytes_ok in B. unfold fuzz_response, dropped. pose proof (handle_panic dbg m ([], []) B) as HP. pose proof (handle_no_loop dbg m ([], []) B) as HL.
  destruct (fst (handle_response dbg m ([], []))); split; try tauto; try discriminate; split; intros H; try discriminate; apply HP in H; discriminate.
Qed.

(** ** Any stack limit *)
Lemma limit_buffer lim n sls : n <= 65535 ->
  match extends_at lim (new_zeroed_at lim n) sls, extends (new_zeroed n) sls with
  | Ok a, Ok b => deref_at lim a = qb_deref b /\ into_vec_at lim a = into_vec b /\ qb_len a = qb_len b
  | Panic, Panic => True
  | _, _ => False
  end.
Proof.
  intros M. destruct (N.le_gt_cases (n + len (List.concat sls)) 65535) as [L|L].
  - destruct (buffer_contents_at lim n sls M L) as (a & -> & A1 & A2 & A3). destruct (buffer_contents n sls M L) as (b & -> & B1 & B2 & B3). repeat split; congruence.
  - rewrite (proj2 (buffer_panic_at lim n sls M) L), (proj2 (buffer_panic n sls M) L). exact I.
Qed.
Lemma limit_query lim n ty : name_try_from n = Some n -> ty < 65536 ->
  exists a b, build_query_at lim n ty = Ok a /\ build_query n ty = Ok b /\ deref_at lim a = qb_deref b.
Proof.
  intros V T. destruct (build_query_spec_at lim n ty V T) as (a & Ea & Qa & _). destruct (build_query_spec n ty V T) as (b & Eb & Qb & _).
  exists a, b. split; [exact Ea|]. split; [exact Eb|]. eapply query_unique; eassumption.
Qed.

(** ** The validator *)
Section Sigs.
  Variables (e e' : env) (dbg : bool) (inp : list RR).
  Definition ag {A} (r r' : outcome verr A) : Prop := r = r' \/ r = Err Invalid.
  Hypothesis sha1_eq : forall x, e_sha1 e x = e_sha1 e' x.
  Hypothesis sha256_eq : forall x, e_sha256 e x = e_sha256 e' x.
  Hypothesis sort_eq : forall l, e_sort_needs e l = e_sort_needs e' l.
  Hypothesis sig_le : forall s, In s (rrsigs inp) -> forall keys rs, ag (verify_rrsig e dbg s keys rs) (verify_rrsig e' dbg s keys rs).

  Lemma ag_sigs sigs keys rs : (forall s, In s sigs -> In s (rrsigs inp)) -> forall f, ag (verify_dnskey_sigs e dbg sigs keys rs f) (verify_dnskey_sigs e' dbg sigs keys rs f).
  Proof.
    induction sigs as [|s t IH]; intros I f; cbn [verify_dnskey_sigs]; [left; reflexivity|].
    destruct (sig_le s (I s (or_introl eq_refl)) keys (map RR_DnsKey rs)) as [->| ->].
    - destruct (verify_rrsig e' dbg s keys (map RR_DnsKey rs)) as [|[]| |]; try (left; reflexivity). apply IH. intros x X. apply I. right. exact X.
    - right. reflexivity.
  Qed.
  Lemma ds_matches_eq t k d : ds_matches e t k d = ds_matches e' t k d.
  Proof. unfold ds_matches. rewrite sha1_eq, sha256_eq. reflexivity. Qed.
  Lemma validated_eq dses rs : validated_dnskeys e dses rs = validated_dnskeys e' dses rs.
  Proof.
    unfold validated_dnskeys. apply filter_ext. intros k. generalize (trust_sha1 dses). intros t. induction dses as [|d l IH]; [reflexivity|].
    cbn [existsb]. rewrite ds_matches_eq, IH. reflexivity.
  Qed.
  Lemma ag_sig_step zone s st : In s (rrsigs inp) -> ag (sig_step e dbg inp zone s st) (sig_step e' dbg inp zone s st).
  Proof.
    intros I. unfold sig_step. destruct (negb _); [left; reflexivity|].
    destruct (sig_le s I (zone_dnskeys inp zone) (covered inp s)) as [-> | ->]; [left; reflexivity|right; reflexivity].
  Qed.
  Lemma ag_sigs_loop zone sigs : (forall s, In s sigs -> In s (rrsigs inp)) -> forall st, ag (sigs_loop e dbg inp zone sigs st) (sigs_loop e' dbg inp zone sigs st).
  Proof.
    induction sigs as [|s t IH]; intros I st; cbn [sigs_loop]; [left; reflexivity|].
    destruct (ag_sig_step zone s st (I s (or_introl eq_refl))) as [-> | ->]; [|right; reflexivity].
    destruct (sig_step e' dbg inp zone s st); cbn [obind]; try (left; reflexivity). apply IH. intros x X. apply I. right. exact X.
  Qed.
  Lemma ag_zone_step st : ag (zone_step e dbg inp st) (zone_step e' dbg inp st).
  Proof.
    unfold zone_step. destruct (pop_zone st) as [st1 nds]. destruct (if bytes_eqb (v_zone st1) root_name then _ else _) as [dses|]; [|left; reflexivity].
    assert (X : ag (verify_dnskeys e dbg (dnskey_rrsigs inp (v_zone st1)) dses (zone_dnskeys inp (v_zone st1)))
                   (verify_dnskeys e' dbg (dnskey_rrsigs inp (v_zone st1)) dses (zone_dnskeys inp (v_zone st1)))).
    { unfold verify_dnskeys. destruct (is_nil dses); [left; reflexivity|]. destruct (negb _); [left; reflexivity|]. rewrite validated_eq.
      apply ag_sigs. intros s I. unfold dnskey_rrsigs in I. apply filter_In in I. tauto. }
    destruct X as [-> | ->]; [|right; reflexivity]. destruct (verify_dnskeys e' dbg _ dses _); cbn [obind]; try (left; reflexivity).
    apply ag_sigs_loop. intros x X. unfold zone_rrsigs in X. apply filter_In in X. tauto.
  Qed.
  Lemma ag_zone_loop fuel : forall st, ag (zone_loop e dbg inp fuel st) (zone_loop e' dbg inp fuel st).
  Proof.
    induction fuel as [|f IH]; intros st; cbn [zone_loop]; destruct (_ || _); try (left; reflexivity).
    destruct (ag_zone_step st) as [-> | ->]; [|right; reflexivity]. destruct (zone_step e' dbg inp st); cbn [obind]; try (left; reflexivity). apply IH.
  Qed.
  Lemma iter_eq salt n : forall h, nsec3_iter e salt n h = nsec3_iter e' salt n h.
  Proof. induction n as [|n IH]; intros h; cbn [nsec3_iter]; [reflexivity|]. rewrite sha1_eq. apply IH. Qed.
  Lemma table_eq nm ns : forall tbl, nsec3_table e nm ns tbl = nsec3_table e' nm ns tbl.
  Proof.
    induction ns as [|n t IH]; intros tbl; cbn [nsec3_table]; [reflexivity|]. unfold nsec3_hash. rewrite sha1_eq, iter_eq, !IH. reflexivity.
  Qed.
  Lemma proof_eq res fuel : forall needs, proof_loop e res fuel needs = proof_loop e' res fuel needs.
  Proof.
    induction fuel as [|f IH]; intros [|nd t]; cbn [proof_loop]; try reflexivity. unfold discharge. destruct nd as [[nm zone] ty]. rewrite table_eq.
    destruct (match find _ _ with Some _ => _ | None => _ end); [apply IH|reflexivity].
  Qed.
  Lemma ag_verify fuel : ag (verify_rr_stream e dbg fuel inp) (verify_rr_stream e' dbg fuel inp).
  Proof.
    unfold verify_rr_stream. destruct (ag_zone_loop fuel vinit) as [-> | ->]; [|right; reflexivity]. left.
    destruct (zone_loop e' dbg inp fuel vinit); cbn [obind]; try reflexivity. unfold finish_verify. rewrite sort_eq, proof_eq. reflexivity.
  Qed.
End Sigs.

Lemma ag_check e e' s k msg : (forall a pk m, e_sig e a pk m (rs_signature s) = true -> e_sig e' a pk m (rs_signature s) = true) ->
  ag (check_sig e s k msg) (check_sig e' s k msg).
Proof.
  intros H. unfold check_sig.
  assert (G : forall a pk, ag (A := unit) (if e_sig e a pk msg (rs_signature s) then Ok tt else Err Invalid) (if e_sig e' a pk msg (rs_signature s) then Ok tt else Err Invalid)).
  { intros a pk. destruct (e_sig e a pk msg (rs_signature s)) eqn:X; [rewrite (H _ _ _ X); left; reflexivity|right; reflexivity]. }
  destruct (_ || _); [destruct (bytes_to_rsa_pk _) as [[n ex]|]; [apply G|left; reflexivity]|]. destruct (_ || _); [apply G|].
  destruct (_ =? 15); [apply G|left; reflexivity].
Qed.
Lemma ag_rrsig e e' dbg s keys rs : (forall a pk m, e_sig e a pk m (rs_signature s) = true -> e_sig e' a pk m (rs_signature s) = true) ->
  ag (verify_rrsig e dbg s keys rs) (verify_rrsig e' dbg s keys rs).
Proof.
  intros H. unfold verify_rrsig. destruct (existsb _ rs); [left; reflexivity|]. induction keys as [|k t IH]; cbn [verify_with_keys]; [left; reflexivity|].
  destruct (key_usable s k); [|exact IH]. destruct (signed_records _ _ _); cbn [obind]; try (left; reflexivity). apply ag_check. exact H.
Qed.
(** More signatures accepted. *)
Lemma verify_sig_mono e e' dbg fuel inp : (forall x, e_sha1 e x = e_sha1 e' x) -> (forall x, e_sha256 e x = e_sha256 e' x) ->
  (forall l, e_sort_needs e l = e_sort_needs e' l) ->
  (forall s, In (RR_RRSig s) inp -> forall a pk m, e_sig e a pk m (rs_signature s) = true -> e_sig e' a pk m (rs_signature s) = true) ->
  verify_rr_stream e dbg fuel inp <> Err Invalid -> verify_rr_stream e' dbg fuel inp = verify_rr_stream e dbg fuel inp.
Proof.
  intros H1 H2 H3 H4 N. destruct (ag_verify e e' dbg inp H1 H2 H3) with (fuel := fuel) as [X|X]; [|congruence..].
  intros s I keys rs. apply ag_rrsig. apply H4. unfold rrsigs in I. apply in_flat_map in I. destruct I as (r & R & I). destruct r; cbn in I; try contradiction.
  destruct I as [<-|[]]. exact R.
Qed.
Lemma fuzzing_agrees e dbg fuel inp : verify_rr_stream e dbg fuel inp <> Err Invalid ->
  verify_rr_stream (fuzzing e) dbg fuel inp = verify_rr_stream e dbg fuel inp.
Proof. apply verify_sig_mono; try reflexivity. intros s _ a pk m H. cbn [fuzzing e_sig]. rewrite H. reflexivity. Qed.
Lemma fuzzing_same e dbg fuel inp : (forall s r, In (RR_RRSig s) inp -> rs_signature s <> 1 :: r) ->
  verify_rr_stream (fuzzing e) dbg fuel inp = verify_rr_stream e dbg fuel inp.
Proof.
  intros F. assert (R : forall e1 e2, (e1 = e /\ e2 = fuzzing e) \/ (e1 = fuzzing e /\ e2 = e) -> verify_rr_stream e1 dbg fuel inp <> Err Invalid ->
    verify_rr_stream e2 dbg fuel inp = verify_rr_stream e1 dbg fuel inp).
  { intros e1 e2 [[-> ->]|[-> ->]]; apply verify_sig_mono; try reflexivity; intros s I a pk m H; cbn [fuzzing e_sig] in *; [rewrite H; reflexivity|].
    specialize (F s). destruct (rs_signature s) as [|c t]; [rewrite orb_false_r in H; exact H|]. destruct (N.eqb_spec c 1) as [->|_]; [exfalso; eapply F; [exact I|reflexivity]|].
    rewrite orb_false_r in H. exact H. }
  assert (D : verify_rr_stream e dbg fuel inp = Err Invalid \/ verify_rr_stream e dbg fuel inp <> Err Invalid).
  { destruct (verify_rr_stream e dbg fuel inp) as [|[]| |]; auto; right; discriminate. }
  assert (D' : verify_rr_stream (fuzzing e) dbg fuel inp = Err Invalid \/ verify_rr_stream (fuzzing e) dbg fuel inp <> Err Invalid).
  { destruct (verify_rr_stream (fuzzing e) dbg fuel inp) as [|[]| |]; auto; right; discriminate. }
  destruct D as [D|D]; [|apply (R e (fuzzing e)); auto]. destruct D' as [D'|D']; [congruence|]. symmetry. apply (R (fuzzing e) e); auto.
Qed.

(** ** Base 32 *)
Lemma dec_chunks_len cs : forall r, b32_dec_chunks cs = Some r -> len r = 5 * N.of_nat (List.length cs).
Proof.
  induction cs as [|c t IH]; cbn [b32_dec_chunks]; intros r H.
  - injection H as <-. reflexivity.
  - destruct (b32_values c); [|discriminate]. destruct (b32_dec_chunks t) as [r'|]; [|discriminate]. injection H as <-.
    specialize (IH r' eq_refl). unfold len in *. cbn [app List.length]. lia.
Qed.
Lemma chunks_count {A} fuel : forall l : list A, (List.length l <= fuel)%nat -> N.of_nat (List.length (chunks_aux fuel 8 l)) = (len l + 7) / 8.
Proof.
  induction fuel as [|f IH]; intros l L; cbn [chunks_aux].
  - destruct l; [reflexivity|cbn in L; lia].
  - destruct l as [|x t]; [reflexivity|].
    assert (Q : N.of_nat (List.length (chunks_aux f 8 (skipn 8 (x :: t)))) = (N.of_nat (List.length (x :: t) - 8) + 7) / 8).
    { rewrite IH by (rewrite skipn_length; cbn [List.length] in *; lia). unfold len. rewrite skipn_length. reflexivity. }
    cbn [List.length] in *. rewrite Nat2N.inj_succ, Q. unfold len. cbn [List.length].
    set (n := List.length t) in *. assert (C : (S n <= 8 \/ 8 < S n)%nat) by lia. destruct C.
    + replace (S n - 8)%nat with O by lia. change ((N.of_nat 0 + 7) / 8) with 0.
      assert (X : 1 = (N.of_nat (S n) + 7) / 8) by (apply (N.div_unique _ _ _ (N.of_nat n)); lia). lia.
    + assert (X : (N.of_nat (S n) + 7) / 8 = (N.of_nat (S n - 8) + 7) / 8 + 1).
      { rewrite <- N.div_add by lia. f_equal. lia. } lia.
Qed.
Lemma b32_capacity data r : b32_dec_chunks (chunks 8 data) = Some r -> len r = b32_cap data /\ len data * 5 / 8 <= len r.
Proof.
  intros H. apply dec_chunks_len in H. unfold chunks in H. rewrite chunks_count in H by lia. unfold b32_cap. split; [lia|]. rewrite H.
  apply N.div_le_upper_bound; [lia|]. pose proof (N.div_mod (len data + 7) 8). pose proof (N.mod_lt (len data + 7) 8). lia.
Qed.

(** ** The validating target *)
Lemma validate_panic e dbg fuel data : is_bytes data -> parse_stream_validate e dbg fuel data = Panic ->
  BadStream NamePlain (negb dbg) dbg data \/
  dbg = true /\ exists rrs z s, parse_rr_stream dbg data = Ok rrs /\ EmptyMaxLabels rrs s /\
    TrustedZone (fuzzing e) rrs (fun _ => True) z /\ SignedByZone (fuzzing e) rrs (fun _ => True) z s.
Proof.
  intros B H. unfold parse_stream_validate in H. destruct (parse_rr_stream dbg data) as [rrs| | |] eqn:P; cbn [dropped] in H; try discriminate H.
  - right. unfold dropped in H. destruct (verify_rr_stream (fuzzing e) dbg fuel rrs) eqn:V; try discriminate H.
    destruct (parsed_verify_panic (fuzzing e) dbg dbg fuel data rrs B P V) as (D & z & s & X). split; [exact D|]. exists rrs, z, s. tauto.
  - left. apply is_bytes_ok in B. apply (proj1 (parse_stream_panic dbg data B)). exact P.
Qed.
Lemma validate_panic_back e dbg fuel data : is_bytes data -> BadStream NamePlain (negb dbg) dbg data -> parse_stream_validate e dbg fuel data = Panic.
Proof.
  intros B H. apply is_bytes_ok in B. apply (proj1 (parse_stream_panic dbg data B)) in H. unfold parse_stream_validate. rewrite H. reflexivity.
Qed.
Lemma validate_panics e dbg fuel data : is_bytes data ->
  (parse_stream_validate e dbg fuel data = Panic ->
    BadStream NamePlain (negb dbg) dbg data \/
    dbg = true /\ exists rrs z s, parse_rr_stream dbg data = Ok rrs /\ EmptyMaxLabels rrs s /\
      TrustedZone (fuzzing e) rrs (fun _ => True) z /\ SignedByZone (fuzzing e) rrs (fun _ => True) z s) /\
  (BadStream NamePlain (negb dbg) dbg data -> parse_stream_validate e dbg fuel data = Panic).
Proof. intros B. split; [apply validate_panic; exact B|apply validate_panic_back; exact B]. Qed.
Lemma validate_ends e dbg data rrs s0 n : is_bytes data -> parse_rr_stream dbg data = Ok rrs ->
  (forall s, In (RR_RRSig s) rrs /\ rs_ty s = 43 -> rs_name s <> rs_key_name s) ->
  In (RR_RRSig s0) rrs /\ rs_ty s0 = 43 -> rs_key_name s0 = [46] -> supported_alg (rs_alg s0) ->
  (S (List.length (rrsigs rrs)) ^ 255 <= n)%nat -> parse_stream_validate e dbg (S n) data <> Loop.
Proof.
  intros B P D I R A L. unfold parse_stream_validate. rewrite P. pose proof (verify_terminates (fuzzing e) dbg rrs (parsed_held _ _ _ B P) D s0 n I R A L) as V.
  unfold dropped. destruct (verify_rr_stream (fuzzing e) dbg (S n) rrs); congruence.
Qed.
