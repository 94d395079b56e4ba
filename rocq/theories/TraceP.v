(** What the validator asks of the crypto library. *)
From Verif Require Import Base BaseP NameM WireM RRM Base32M ValM ValSpec VisitP TraceM TraceSpec.
From Coq Require Import PeanoNat Permutation.
Local Open Scope N_scope.

Ltac two x := let a := fresh "evs" in let b := fresh "o" in destruct x as [a b] eqn:?.

(** ** The log changes nothing *)
Lemma same_check e s k m : snd (t_check_sig e s k m) = check_sig e s k m.
Proof.
  unfold t_check_sig, check_sig. destruct ((rs_alg s =? 8) || (rs_alg s =? 10)); [destruct (bytes_to_rsa_pk (dk_pubkey k)) as [[a b] |]; reflexivity |].
  destruct ((rs_alg s =? 13) || (rs_alg s =? 14)); [reflexivity |]. destruct (rs_alg s =? 15); reflexivity.
Qed.
Lemma same_keys e dbg s keys rs : snd (t_verify_with_keys e dbg s keys rs) = verify_with_keys e dbg s keys rs.
Proof. induction keys as [| k t IH]; [reflexivity |]. cbn [t_verify_with_keys verify_with_keys]. destruct (key_usable s k); [| exact IH]. destruct (signed_records dbg s (sort_by rr_cmp rs)); try reflexivity. apply same_check. Qed.
Lemma same_rrsig e dbg s keys rs : snd (t_verify_rrsig e dbg s keys rs) = verify_rrsig e dbg s keys rs.
Proof. unfold t_verify_rrsig, verify_rrsig. destruct (existsb _ rs); [reflexivity | apply same_keys]. Qed.
Lemma same_ds e ts k dses : snd (t_ds_loop e ts k dses) = existsb (ds_matches e ts k) dses.
Proof.
  induction dses as [| d t IH]; [reflexivity |]. cbn [t_ds_loop existsb]. unfold ds_matches at 1. destruct ((ds_alg d =? dk_alg k) && (key_tag k =? ds_key_tag d)); [| exact IH]. cbn [andb].
  destruct ((ds_digest_type d =? 1) && ts); [| destruct (ds_digest_type d =? 2); [| exact IH]];
    (destruct (bytes_eqb _ (ds_digest d)); [reflexivity |]); destruct (t_ds_loop e ts k t); exact IH.
Qed.
Lemma same_validated e dses ks : snd (t_validated e dses ks) = validated_dnskeys e dses ks.
Proof.
  unfold validated_dnskeys. induction ks as [| k t IH]; [reflexivity |]. cbn [t_validated filter]. rewrite <- (same_ds e (trust_sha1 dses) k dses).
  destruct (t_ds_loop e (trust_sha1 dses) k dses) as [evs b]. destruct (t_validated e dses t) as [evs' ks]. cbn [snd] in *. rewrite IH. destruct b; reflexivity.
Qed.
Lemma same_dnskey_sigs e dbg keys rs sigs : forall f, snd (t_verify_dnskey_sigs e dbg sigs keys rs f) = verify_dnskey_sigs e dbg sigs keys rs f.
Proof.
  induction sigs as [| s t IH]; intros f; [reflexivity |]. cbn [t_verify_dnskey_sigs verify_dnskey_sigs]. rewrite <- same_rrsig. destruct (t_verify_rrsig e dbg s keys (map RR_DnsKey rs)) as [evs [u | [] | |]]; cbn [snd]; try reflexivity.
  specialize (IH true). destruct (t_verify_dnskey_sigs e dbg t keys rs true). exact IH.
Qed.
Lemma same_dnskeys e dbg sigs dses ks : snd (t_verify_dnskeys e dbg sigs dses ks) = verify_dnskeys e dbg sigs dses ks.
Proof.
  unfold t_verify_dnskeys, verify_dnskeys. destruct (is_nil dses); [reflexivity |]. destruct (negb _); [reflexivity |]. rewrite <- same_validated, <- same_dnskey_sigs.
  destruct (t_validated e dses ks) as [evs v]. cbn [snd]. destruct (t_verify_dnskey_sigs e dbg sigs v ks false). reflexivity.
Qed.
Lemma same_step e dbg inp z s st : snd (t_sig_step e dbg inp z s st) = sig_step e dbg inp z s st.
Proof. unfold t_sig_step, sig_step. destruct (negb _); [reflexivity |]. rewrite <- same_rrsig. destruct (t_verify_rrsig _ _ _ _ _) as [evs [u | [] | |]]; reflexivity. Qed.
Lemma same_loop e dbg inp z sigs : forall st, snd (t_sigs_loop e dbg inp z sigs st) = sigs_loop e dbg inp z sigs st.
Proof.
  induction sigs as [| s t IH]; intros st; [reflexivity |]. cbn [t_sigs_loop sigs_loop]. rewrite <- same_step. destruct (t_sig_step e dbg inp z s st) as [evs [st' | x | |]]; cbn [snd obind]; try reflexivity.
  specialize (IH st'). destruct (t_sigs_loop e dbg inp z t st'). exact IH.
Qed.
Lemma same_zone e dbg inp st : snd (t_zone_step e dbg inp st) = zone_step e dbg inp st.
Proof.
  unfold t_zone_step, zone_step. destruct (pop_zone st) as [st1 nd]. destruct (if bytes_eqb (v_zone st1) root_name then Some root_hints else nd) as [dses |]; [| reflexivity].
  rewrite <- same_dnskeys. destruct (t_verify_dnskeys _ _ _ _ _) as [evs [s | x | |]]; cbn [snd obind]; try reflexivity. rewrite <- same_loop. destruct (t_sigs_loop _ _ _ _ _ _). reflexivity.
Qed.
Lemma same_zones e dbg inp fuel : forall st, snd (t_zone_loop e dbg inp fuel st) = zone_loop e dbg inp fuel st.
Proof.
  induction fuel as [| f IH]; intros st; cbn [t_zone_loop zone_loop]; (destruct (bytes_eqb (v_zone st) root_name || negb (is_nil (v_pending st))); [| reflexivity]); [reflexivity |].
  rewrite <- same_zone. destruct (t_zone_step e dbg inp st) as [evs [st' | x | |]]; cbn [snd obind]; try reflexivity. specialize (IH st'). destruct (t_zone_loop e dbg inp f st'). exact IH.
Qed.
Lemma same_iter e salt n : forall h, snd (t_nsec3_iter e salt n h) = nsec3_iter e salt n h.
Proof. induction n as [| n IH]; intros h; [reflexivity |]. cbn [t_nsec3_iter nsec3_iter]. rewrite <- IH. destruct (t_nsec3_iter e salt n (e_sha1 e (h ++ salt))). reflexivity. Qed.
Lemma same_hash e nm salt it : snd (t_nsec3_hash e nm salt it) = nsec3_hash e nm salt it.
Proof. unfold t_nsec3_hash, nsec3_hash. rewrite <- same_iter. destruct (t_nsec3_iter _ _ _ _). reflexivity. Qed.
Lemma same_table e nm ns : forall tbl, snd (t_nsec3_table e nm ns tbl) = nsec3_table e nm ns tbl.
Proof.
  induction ns as [| n t IH]; intros tbl; [reflexivity |]. cbn [t_nsec3_table nsec3_table]. destruct (2500 <? n3_iters n); [apply IH |]. destruct (negb (n3_algo n =? 1)); [apply IH |]. destruct (existsb (n3_params_eqb n) tbl); [apply IH |].
  rewrite <- same_hash. destruct (t_nsec3_hash e nm (n3_salt n) (n3_iters n)) as [evs h]. cbn [snd]. destruct (2 <=? _); [reflexivity |]. rewrite <- IH. destruct (t_nsec3_table e nm t _). reflexivity.
Qed.
Lemma same_discharge e res nd needs : snd (t_discharge e res nd needs) = discharge e res nd needs.
Proof. destruct nd as [[nm z] ty]. unfold t_discharge, discharge. destruct (find _ _); [reflexivity |]. rewrite <- same_table. destruct (t_nsec3_table _ _ _ _). reflexivity. Qed.
Lemma same_proof e res fuel : forall needs, snd (t_proof_loop e res fuel needs) = proof_loop e res fuel needs.
Proof.
  induction fuel as [| f IH]; intros [| nd t]; try reflexivity. cbn [t_proof_loop proof_loop]. rewrite <- same_discharge. destruct (t_discharge e res nd t) as [evs [t' |]]; cbn [snd]; [| reflexivity]. rewrite <- IH. destruct (t_proof_loop e res f t'). reflexivity.
Qed.
Lemma same_finish e st : snd (t_finish_verify e st) = finish_verify e st.
Proof. unfold t_finish_verify, finish_verify. destruct (is_nil _); [reflexivity |]. destruct (_ <=? _); [reflexivity |]. rewrite <- same_proof. destruct (t_proof_loop _ _ _ _). reflexivity. Qed.
Lemma same_run e dbg fuel inp : snd (t_verify_rr_stream e dbg fuel inp) = verify_rr_stream e dbg fuel inp.
Proof.
  unfold t_verify_rr_stream, verify_rr_stream. rewrite <- same_zones. destruct (t_zone_loop e dbg inp fuel vinit) as [evs [st | x | |]]; cbn [snd obind]; try reflexivity.
  rewrite <- same_finish. destruct (t_finish_verify e st). reflexivity.
Qed.

(** ** One signature check at most, and none after a refusal *)
(** [evs] has no refusal but perhaps at its end, and then [P]. *)
Definition Stops (evs : list event) (P : Prop) : Prop :=
  Forall (fun ev => ~ refused ev) evs \/ exists pre ev, evs = pre ++ [ev] /\ refused ev /\ Forall (fun ev => ~ refused ev) pre /\ P.
Lemma stops_nil P : Stops [] P.
Proof. left. apply Forall_nil. Qed.
Lemma stops_app a b P : Stops a False -> Stops b P -> Stops (a ++ b) P.
Proof.
  intros [A | (q & w & _ & _ & _ & [])] [B | (p & v & -> & R & B & H)]; [left; apply Forall_app; auto |].
  right. exists (a ++ p), v. rewrite app_assoc. split; [reflexivity |]. split; [exact R |]. split; [apply Forall_app; auto | exact H].
Qed.
Lemma stops_impl evs (P Q : Prop) : (P -> Q) -> Stops evs P -> Stops evs Q.
Proof. intros H [A | (p & v & E & R & A & X)]; [left; exact A | right; exists p, v; auto]. Qed.
Lemma stops_clean evs P : Forall (fun ev => ~ refused ev) evs -> Stops evs P.
Proof. left. assumption. Qed.
Lemma hash_clean evs : Forall is_hash evs -> Forall (fun ev => ~ refused ev) evs.
Proof. apply Forall_impl. intros []; cbn; intros H; (contradiction || (intros []; fail) || auto). Qed.

(** A check of one RRSIG: one question at most; one if it succeeds; none if the algorithm is unknown. *)
Definition OneCheck (e : env) (evs : list event) (o : outcome verr unit) : Prop :=
  Forall is_check evs /\ Forall (answered e) evs /\ (length evs <= 1)%nat /\ Stops evs (o = Err Invalid) /\
  (o = Ok tt -> length evs = 1%nat) /\ (o = Err UnsupportedAlgorithm -> evs = []).
Lemma one_none e o : o <> Ok tt -> OneCheck e [] o.
Proof. intros H. split; [apply Forall_nil |]. split; [apply Forall_nil |]. split; [cbn; lia |]. split; [apply stops_nil |]. split; [contradiction | reflexivity]. Qed.
Lemma one_asked e a k m s : OneCheck e [E_Sig a k m s (e_sig e a k m s)] (if e_sig e a k m s then Ok tt else Err Invalid).
Proof.
  split; [apply Forall_cons; [exact I | apply Forall_nil] |]. split; [apply Forall_cons; [reflexivity | apply Forall_nil] |]. split; [cbn; lia |].
  destruct (e_sig e a k m s); split.
  - left. apply Forall_cons; [intros [] | apply Forall_nil].
  - split; [reflexivity | discriminate].
  - right. exists [], (E_Sig a k m s false). split; [reflexivity |]. split; [exact I |]. split; [apply Forall_nil | reflexivity].
  - split; [discriminate | discriminate].
Qed.
Lemma one_check e s k m : OneCheck e (fst (t_check_sig e s k m)) (snd (t_check_sig e s k m)).
Proof.
  unfold t_check_sig. destruct ((rs_alg s =? 8) || (rs_alg s =? 10)); [destruct (bytes_to_rsa_pk (dk_pubkey k)) as [[a b] |]; [apply one_asked | apply one_none; discriminate] |].
  destruct ((rs_alg s =? 13) || (rs_alg s =? 14)); [apply one_asked |]. destruct (rs_alg s =? 15); [apply one_asked | apply one_none; discriminate].
Qed.
Lemma one_keys e dbg s keys rs : OneCheck e (fst (t_verify_with_keys e dbg s keys rs)) (snd (t_verify_with_keys e dbg s keys rs)).
Proof.
  induction keys as [| k t IH]; [apply one_none; discriminate |]. cbn [t_verify_with_keys]. destruct (key_usable s k); [| exact IH].
  destruct (signed_records dbg s (sort_by rr_cmp rs)); try (apply one_none; discriminate). apply one_check.
Qed.
Lemma one_rrsig e dbg s keys rs : OneCheck e (fst (t_verify_rrsig e dbg s keys rs)) (snd (t_verify_rrsig e dbg s keys rs)).
Proof. unfold t_verify_rrsig. destruct (existsb _ rs); [apply one_none; discriminate | apply one_keys]. Qed.

(** ** The keys of a zone *)
Lemma ds_hashes e ts k dses : Forall is_hash (fst (t_ds_loop e ts k dses)) /\ (length (fst (t_ds_loop e ts k dses)) <= length dses)%nat.
Proof.
  induction dses as [| d t [IH1 IH2]]; [split; [apply Forall_nil | cbn; lia] |]. cbn [t_ds_loop length]. destruct (t_ds_loop e ts k t) as [evs b]. cbn [fst] in *.
  destruct ((ds_alg d =? dk_alg k) && (key_tag k =? ds_key_tag d)); [| cbn [fst]; split; [exact IH1 | lia]].
  destruct ((ds_digest_type d =? 1) && ts); [| destruct (ds_digest_type d =? 2); [| cbn [fst]; split; [exact IH1 | lia]]];
    (destruct (bytes_eqb _ (ds_digest d)); cbn [fst length]; (split; [apply Forall_cons; [exact I | first [exact IH1 | apply Forall_nil]] | lia])).
Qed.
Lemma validated_hashes e dses ks : Forall is_hash (fst (t_validated e dses ks)) /\ (length (fst (t_validated e dses ks)) <= length ks * length dses)%nat.
Proof.
  induction ks as [| k t [IH1 IH2]]; [split; [apply Forall_nil | cbn; lia] |]. cbn [t_validated length]. destruct (ds_hashes e (trust_sha1 dses) k dses) as [D1 D2].
  destruct (t_ds_loop e (trust_sha1 dses) k dses) as [evs b]. destruct (t_validated e dses t) as [evs' ks']. cbn [fst] in *. rewrite app_length. split; [apply Forall_app; auto | lia].
Qed.
Lemma dnskey_checks e dbg keys rs sigs : forall f, let '(evs, o) := t_verify_dnskey_sigs e dbg sigs keys rs f in
  Forall is_check evs /\ Forall (answered e) evs /\ (length evs <= 1)%nat /\ Stops evs (o = Err Invalid).
Proof.
  induction sigs as [| s t IH]; intros f; cbn [t_verify_dnskey_sigs]; [split; [apply Forall_nil |]; split; [apply Forall_nil |]; split; [cbn; lia | apply stops_nil] |].
  destruct (one_rrsig e dbg s keys (map RR_DnsKey rs)) as (C1 & C2 & C3 & C4 & C5 & C6). destruct (t_verify_rrsig e dbg s keys (map RR_DnsKey rs)) as [evs [[] | [] | |]]; cbn [fst snd] in *.
  - split; [exact C1 |]. split; [exact C2 |]. split; [exact C3 |]. eapply stops_impl; [| exact C4]. discriminate.
  - rewrite (C6 eq_refl). specialize (IH true). destruct (t_verify_dnskey_sigs e dbg t keys rs true). exact IH.
  - split; [exact C1 |]. split; [exact C2 |]. split; [exact C3 |]. eapply stops_impl; [| exact C4]. reflexivity.
  - split; [exact C1 |]. split; [exact C2 |]. split; [exact C3 |]. eapply stops_impl; [| exact C4]. discriminate.
  - split; [exact C1 |]. split; [exact C2 |]. split; [exact C3 |]. eapply stops_impl; [| exact C4]. discriminate.
Qed.
Lemma hash_answered e evs : Forall is_hash evs -> Forall (answered e) evs.
Proof. apply Forall_impl. intros []; cbn; intros H; (contradiction || exact I). Qed.
Lemma dnskeys_work e dbg sigs dses ks : let '(evs, o) := t_verify_dnskeys e dbg sigs dses ks in
  exists hs cs, evs = hs ++ cs /\ Forall is_hash hs /\ (length hs <= length ks * length dses)%nat /\ Forall is_check cs /\ (length cs <= 1)%nat /\
    Forall (answered e) evs /\ Stops evs (o = Err Invalid).
Proof.
  assert (Z : forall P, exists hs cs : list event, [] = hs ++ cs /\ Forall is_hash hs /\ (length hs <= length ks * length dses)%nat /\ Forall is_check cs /\ (length cs <= 1)%nat /\ Forall (answered e) [] /\ Stops [] P).
  { intros P. exists [], []. split; [reflexivity |]. split; [apply Forall_nil |]. split; [cbn; lia |]. split; [apply Forall_nil |]. split; [cbn; lia |]. split; [apply Forall_nil | apply stops_nil]. }
  unfold t_verify_dnskeys. destruct (is_nil dses); [apply Z |]. destruct (negb _); [apply Z |].
  destruct (validated_hashes e dses ks) as [V1 V2]. destruct (t_validated e dses ks) as [hs v]. cbn [fst] in *. pose proof (dnskey_checks e dbg v ks sigs false) as D. destruct (t_verify_dnskey_sigs e dbg sigs v ks false) as [cs o]. destruct D as (D1 & D2 & D3 & D4).
  exists hs, cs. split; [reflexivity |]. split; [exact V1 |]. split; [exact V2 |]. split; [exact D1 |]. split; [exact D3 |]. split; [apply Forall_app; split; [apply hash_answered; exact V1 | exact D2] |].
  apply stops_app; [apply stops_clean, hash_clean; exact V1 | exact D4].
Qed.

(** ** The signatures of a zone *)
Lemma note_needs s st : v_needs (note_sig s st) = v_needs st.
Proof. reflexivity. Qed.
Lemma step_work e dbg inp z s st : let '(evs, o) := t_sig_step e dbg inp z s st in
  Forall is_check evs /\ Forall (answered e) evs /\ (length evs <= 1)%nat /\ Stops evs (o = Err Invalid) /\
  (forall st', o = Ok st' -> (length (v_needs st') <= length (v_needs st) + length evs)%nat).
Proof.
  unfold t_sig_step. destruct (negb _); [split; [apply Forall_nil |]; split; [apply Forall_nil |]; split; [cbn; lia |]; split; [apply stops_nil | discriminate] |].
  destruct (one_rrsig e dbg s (zone_dnskeys inp z) (covered inp s)) as (C1 & C2 & C3 & C4 & C5 & C6). destruct (t_verify_rrsig _ _ _ _ _) as [evs [[] | [] | |]]; cbn [fst snd] in *;
    (split; [exact C1 |]; split; [exact C2 |]; split; [exact C3 |]).
  - split; [eapply stops_impl; [| exact C4]; discriminate |]. intros st' H. specialize (C5 eq_refl). destruct ((rs_ty s =? T_RRSIG) || (rs_ty s =? T_DNSKEY)); [discriminate H |]. destruct (rs_ty s =? T_DS).
    + injection H as <-. unfold push_ds. destruct (existsb _ _); cbn [v_needs note_sig]; lia.
    + assert (W : forall nd, wildcard_need dbg s = Ok nd -> (length nd <= 1)%nat).
      { intros nd. unfold wildcard_need. destruct (negb _ && negb _); [| intros [= <-]; cbn; lia]. destruct (rs_ty s =? T_NSEC3); [discriminate |]. destruct (dbg && _); [discriminate |]. destruct (trailing_n_labels _ _); [intros [= <-]; cbn; lia | discriminate]. }
      destruct (wildcard_need dbg s) as [nd | | |]; cbn [obind] in H; try discriminate H. injection H as <-. cbn [v_needs note_sig]. rewrite app_length. specialize (W nd eq_refl). lia.
  - split; [eapply stops_impl; [| exact C4]; discriminate |]. intros st' [= <-]. lia.
  - split; [eapply stops_impl; [| exact C4]; reflexivity | discriminate].
  - split; [eapply stops_impl; [| exact C4]; discriminate | discriminate].
  - split; [eapply stops_impl; [| exact C4]; discriminate | discriminate].
Qed.
Lemma loop_work e dbg inp z sigs : forall st, let '(evs, o) := t_sigs_loop e dbg inp z sigs st in
  Forall is_check evs /\ Forall (answered e) evs /\ (length evs <= length sigs)%nat /\ Stops evs (o = Err Invalid) /\
  (forall st', o = Ok st' -> (length (v_needs st') <= length (v_needs st) + length evs)%nat).
Proof.
  induction sigs as [| s t IH]; intros st; cbn [t_sigs_loop length].
  - split; [apply Forall_nil |]. split; [apply Forall_nil |]. split; [cbn; lia |]. split; [apply stops_nil |]. intros st' [= <-]. lia.
  - pose proof (step_work e dbg inp z s st) as S1. destruct (t_sig_step e dbg inp z s st) as [evs o]. destruct S1 as (A1 & A2 & A3 & A4 & A5). destruct o as [st1 | x | |].
    + specialize (IH st1). destruct (t_sigs_loop e dbg inp z t st1) as [evs' o]. destruct IH as (B1 & B2 & B3 & B4 & B5). rewrite app_length. split; [apply Forall_app; auto |]. split; [apply Forall_app; auto |]. split; [lia |].
      split; [apply stops_app; [eapply stops_impl; [| exact A4]; discriminate | exact B4] |]. intros st' H. specialize (A5 _ eq_refl). specialize (B5 _ H). lia.
    + split; [exact A1 |]. split; [exact A2 |]. split; [lia |]. split; [exact A4 | discriminate].
    + split; [exact A1 |]. split; [exact A2 |]. split; [lia |]. split; [exact A4 | discriminate].
    + split; [exact A1 |]. split; [exact A2 |]. split; [lia |]. split; [exact A4 | discriminate].
Qed.

(** ** Zones *)
Lemma keys_len inp z : length (zone_dnskeys inp z) = keys_of inp z.
Proof.
  unfold zone_dnskeys, keys_of. induction inp as [| r t IH]; [reflexivity |]. cbn [flat_map filter]. rewrite filter_app, app_length, IH. destruct r; cbn [as_dnskey filter length]; try lia. destruct (bytes_eqb _ z); cbn [length]; lia.
Qed.
Lemma sigs_len inp z : length (zone_rrsigs inp z) = sigs_by inp z.
Proof.
  unfold zone_rrsigs, rrsigs, sigs_by. change T_DNSKEY with 48. induction inp as [| r t IH]; [reflexivity |]. cbn [flat_map filter]. rewrite filter_app, app_length, IH. destruct r; cbn [as_rrsig filter length]; try lia. destruct (bytes_eqb _ z && _); cbn [length]; lia.
Qed.
Lemma dss_len inp s : (length (flat_map as_ds (covered inp s)) <= dss_of inp (rs_name s))%nat.
Proof.
  unfold covered, dss_of. enough ((length (flat_map as_ds (filter (fun r => bytes_eqb (rr_name r) (rs_name s) && (rr_ty r =? rs_ty s)%N) inp)) <= length (filter (fun r => match r with RR_DS d => bytes_eqb (ds_name d) (rs_name s) | _ => false end) inp))%nat) by lia.
  induction inp as [| r t IH]; [cbn; lia |]. cbn [filter]. destruct (bytes_eqb (rr_name r) (rs_name s)) eqn:E; cbn [andb]; [destruct (rr_ty r =? rs_ty s); cbn [flat_map]; rewrite ?app_length | ]; destruct r; cbn [as_ds length rr_name] in *; rewrite ?E; cbn [length]; lia.
Qed.
(** The delegations still to be followed have not more DS records than the input. *)
Definition PendingOk (inp : list RR) (st : vstate) : Prop := Forall (fun p => (length (snd p) <= dss_of inp (fst p))%nat) (v_pending st).
Lemma loop_pending e dbg inp z sigs : forall st st', PendingOk inp st -> snd (t_sigs_loop e dbg inp z sigs st) = Ok st' -> PendingOk inp st'.
Proof.
  induction sigs as [| s t IH]; intros st st' P H; [injection H as <-; exact P |]. rewrite same_loop in H. cbn [sigs_loop] in H. destruct (sig_step e dbg inp z s st) as [st1 | x | |] eqn:E; try discriminate H. cbn [obind] in H.
  rewrite <- same_loop in H. eapply IH; [| exact H]. unfold sig_step in E. destruct (negb _); [discriminate E |]. destruct (verify_rrsig _ _ _ _ _) as [[] | [] | |]; try discriminate E; [| injection E as <-; exact P].
  destruct ((rs_ty s =? T_RRSIG) || (rs_ty s =? T_DNSKEY)); [discriminate E |]. destruct (rs_ty s =? T_DS).
  - injection E as <-. unfold push_ds. destruct (existsb _ _); [exact P |]. unfold PendingOk. cbn [v_pending note_sig]. apply Forall_cons; [apply dss_len | exact P].
  - destruct (wildcard_need dbg s); try discriminate E. injection E as <-. exact P.
Qed.
Lemma zone_work e dbg inp st : PendingOk inp st -> let '(evs, o) := t_zone_step e dbg inp st in
  exists v, evs = visit_events v /\ VisitBound inp v /\ Forall (answered e) evs /\ Stops evs (o = Err Invalid) /\
    (forall st', o = Ok st' -> PendingOk inp st' /\ (length (v_needs st') <= length (v_needs st) + length (vi_checks v))%nat).
Proof.
  intros P. unfold t_zone_step.
  assert (Q : exists st1 nd, pop_zone st = (st1, nd) /\ v_needs st1 = v_needs st /\ PendingOk inp st1 /\ match nd with Some dses => (length dses <= dss_of inp (v_zone st1))%nat | None => True end).
  { unfold pop_zone. unfold PendingOk in P. destruct (v_pending st) as [| [z dses] rest] eqn:E; eexists; eexists; (split; [reflexivity |]); (split; [reflexivity |]).
    - split; [unfold PendingOk; rewrite E; apply Forall_nil | exact I].
    - inversion P; subst. split; [assumption | assumption]. }
  destruct Q as (st1 & nd & -> & EN & P1 & ND). set (z := v_zone st1) in *.
  destruct (if bytes_eqb z root_name then Some root_hints else nd) as [dses |] eqn:ED.
  2: { exists {| vi_zone := z; vi_hashes := []; vi_checks := [] |}. split; [reflexivity |]. split; [split; [apply Forall_nil |]; split; [cbn; lia |]; split; [apply Forall_nil | cbn; lia] |].
       split; [apply Forall_cons; [exact I | apply Forall_nil] |]. split; [apply stops_clean, Forall_cons; [intros [] | apply Forall_nil] | discriminate]. }
  assert (LD : (length dses <= dss_of inp z)%nat).
  { destruct (bytes_eqb z root_name) eqn:EZ; [injection ED as <-; unfold dss_of; change [46] with root_name; rewrite EZ; cbn [length root_hints]; lia |]. subst nd. exact ND. }
  pose proof (dnskeys_work e dbg (dnskey_rrsigs inp z) dses (zone_dnskeys inp z)) as D. destruct (t_verify_dnskeys e dbg (dnskey_rrsigs inp z) dses (zone_dnskeys inp z)) as [evs o].
  destruct D as (hs & cs & -> & H1 & H2 & H3 & H4 & H5 & H6). rewrite keys_len in H2. assert (H2' : (length hs <= keys_of inp z * dss_of inp z)%nat) by (eapply Nat.le_trans; [exact H2 | apply Nat.mul_le_mono_l; exact LD]).
  assert (B : VisitBound inp {| vi_zone := z; vi_hashes := hs; vi_checks := cs |}) by (split; [exact H1 |]; split; [exact H2' |]; split; [exact H3 | cbn [vi_checks vi_zone]; lia]).
  assert (ZA : forall l, Forall (answered e) l -> Forall (answered e) (E_Zone z :: l)) by (intros l HL; apply Forall_cons; [exact I | exact HL]).
  assert (ZS : forall l Q, Stops l Q -> Stops (E_Zone z :: l) Q) by (intros l Q HL; apply (stops_app [E_Zone z] l); [apply stops_clean, Forall_cons; [intros [] | apply Forall_nil] | exact HL]).
  destruct o as [s | x | |].
  - pose proof (loop_work e dbg inp z (zone_rrsigs inp z) (note_sig s st1)) as L. pose proof (loop_pending e dbg inp z (zone_rrsigs inp z) (note_sig s st1)) as LP.
    destruct (t_sigs_loop e dbg inp z (zone_rrsigs inp z) (note_sig s st1)) as [evs' o']. destruct L as (L1 & L2 & L3 & L4 & L5). rewrite sigs_len in L3. cbn [snd] in LP.
    exists {| vi_zone := z; vi_hashes := hs; vi_checks := cs ++ evs' |}. unfold visit_events. cbn [vi_zone vi_hashes vi_checks]. rewrite <- app_assoc. split; [reflexivity |]. split.
    + split; [exact H1 |]. split; [exact H2' |]. cbn [vi_checks vi_zone]. split; [apply Forall_app; auto | rewrite app_length; lia].
    + rewrite app_assoc. split; [apply ZA, Forall_app; auto |]. split; [apply ZS, stops_app; [eapply stops_impl; [| exact H6]; discriminate | exact L4] |].
      intros st' E. split; [apply (LP st'); [exact P1 | exact E] |]. specialize (L5 st' E). rewrite note_needs, EN in L5. rewrite app_length. lia.
  - exists {| vi_zone := z; vi_hashes := hs; vi_checks := cs |}. split; [reflexivity |]. split; [exact B |]. split; [apply ZA, H5 |]. split; [apply ZS; eapply stops_impl; [| exact H6]; congruence | discriminate].
  - exists {| vi_zone := z; vi_hashes := hs; vi_checks := cs |}. split; [reflexivity |]. split; [exact B |]. split; [apply ZA, H5 |]. split; [apply ZS; eapply stops_impl; [| exact H6]; discriminate | discriminate].
  - exists {| vi_zone := z; vi_hashes := hs; vi_checks := cs |}. split; [reflexivity |]. split; [exact B |]. split; [apply ZA, H5 |]. split; [apply ZS; eapply stops_impl; [| exact H6]; discriminate | discriminate].
Qed.
Lemma zones_work e dbg inp fuel : forall st, PendingOk inp st -> let '(evs, o) := t_zone_loop e dbg inp fuel st in
  exists vs, evs = flat_map visit_events vs /\ Forall (VisitBound inp) vs /\ (length vs <= fuel)%nat /\ Forall (answered e) evs /\ Stops evs (o = Err Invalid) /\
    (forall st', o = Ok st' -> (length (v_needs st') <= length (v_needs st) + checks_of vs)%nat).
Proof.
  induction fuel as [| f IH]; intros st P; cbn [t_zone_loop].
  - destruct (_ || _).
    + exists []. split; [reflexivity |]. split; [apply Forall_nil |]. split; [cbn; lia |]. split; [apply Forall_nil |]. split; [apply stops_nil | discriminate].
    + exists []. split; [reflexivity |]. split; [apply Forall_nil |]. split; [cbn; lia |]. split; [apply Forall_nil |]. split; [apply stops_nil |]. intros st' [= <-]. lia.
  - destruct (_ || _).
    + pose proof (zone_work e dbg inp st P) as Z. destruct (t_zone_step e dbg inp st) as [evs o]. destruct Z as (v & EV & VB & A1 & A2 & A3).
      assert (ONE : evs = flat_map visit_events [v]) by (cbn [flat_map]; rewrite app_nil_r; exact EV). destruct o as [st1 | x | |].
      * destruct (A3 st1 eq_refl) as [P1 N1]. specialize (IH st1 P1). destruct (t_zone_loop e dbg inp f st1) as [evs' o]. destruct IH as (vs & -> & B1 & B2 & B3 & B4 & B5).
        exists (v :: vs). cbn [flat_map length]. split; [rewrite EV; reflexivity |]. split; [apply Forall_cons; auto |]. split; [lia |]. split; [apply Forall_app; auto |].
        split; [apply stops_app; [eapply stops_impl; [| exact A2]; discriminate | exact B4] |]. intros st' E. specialize (B5 st' E). unfold checks_of in *. cbn [flat_map]. rewrite app_length. lia.
      * exists [v]. split; [exact ONE |]. split; [apply Forall_cons; [exact VB | apply Forall_nil] |]. split; [cbn [length]; lia |]. split; [exact A1 |]. split; [eapply stops_impl; [| exact A2]; congruence | discriminate].
      * exists [v]. split; [exact ONE |]. split; [apply Forall_cons; [exact VB | apply Forall_nil] |]. split; [cbn [length]; lia |]. split; [exact A1 |]. split; [eapply stops_impl; [| exact A2]; congruence | discriminate].
      * exists [v]. split; [exact ONE |]. split; [apply Forall_cons; [exact VB | apply Forall_nil] |]. split; [cbn [length]; lia |]. split; [exact A1 |]. split; [eapply stops_impl; [| exact A2]; congruence | discriminate].
    + exists []. split; [reflexivity |]. split; [apply Forall_nil |]. split; [cbn; lia |]. split; [apply Forall_nil |]. split; [apply stops_nil |]. intros st' [= <-]. lia.
Qed.

(** ** Denials *)
Lemma iter_hashes e salt n : forall h, Forall is_hash (fst (t_nsec3_iter e salt n h)) /\ length (fst (t_nsec3_iter e salt n h)) = n.
Proof. induction n as [| n IH]; intros h; [split; [apply Forall_nil | reflexivity] |]. cbn [t_nsec3_iter]. specialize (IH (e_sha1 e (h ++ salt))). destruct (t_nsec3_iter e salt n (e_sha1 e (h ++ salt))). cbn [fst length] in *. destruct IH as [A B]. split; [apply Forall_cons; [exact I | exact A] | lia]. Qed.
Lemma table_hashes e nm ns : forall tbl, len tbl <= 2 -> Forall is_hash (fst (t_nsec3_table e nm ns tbl)) /\ N.of_nat (length (fst (t_nsec3_table e nm ns tbl))) <= (2 - len tbl) * 2501 + (if len tbl =? 2 then 2501 else 0).
Proof.
  induction ns as [| n t IH]; intros tbl LT; [split; [apply Forall_nil | cbn; lia] |]. cbn [t_nsec3_table]. destruct (2500 <? n3_iters n) eqn:E25; [apply IH; exact LT |]. destruct (negb (n3_algo n =? 1)); [apply IH; exact LT |]. destruct (existsb (n3_params_eqb n) tbl); [apply IH; exact LT |].
  apply N.ltb_ge in E25. unfold t_nsec3_hash. destruct (iter_hashes e (n3_salt n) (N.to_nat (n3_iters n)) (e_sha1 e (write_name nm ++ n3_salt n))) as [I1 I2].
  destruct (t_nsec3_iter e (n3_salt n) (N.to_nat (n3_iters n)) (e_sha1 e (write_name nm ++ n3_salt n))) as [evs h]. cbn [fst] in *.
  assert (LL : len (tbl ++ [(n3_iters n, n3_salt n, h)]) = len tbl + 1) by (unfold len; rewrite app_length; cbn [length]; lia).
  rewrite LL. destruct (2 <=? len tbl + 1) eqn:E2.
  - cbn [fst length]. split; [apply Forall_cons; [exact I | exact I1] |]. destruct (N.eqb_spec (len tbl) 2); lia.
  - apply N.leb_gt in E2. assert (L0 : len tbl = 0) by lia. specialize (IH (tbl ++ [(n3_iters n, n3_salt n, h)]) ltac:(lia)). rewrite LL, L0 in IH. destruct (t_nsec3_table e nm t _) as [evs' r]. cbn [fst] in *. destruct IH as [A B].
    split; [apply Forall_cons; [exact I | apply Forall_app; auto] |]. cbn [length]. rewrite app_length. rewrite L0. cbn in B |- *. lia.
Qed.
Lemma discharge_work e res nd needs : let '(evs, o) := t_discharge e res nd needs in
  exists s, evs = search_events s /\ SearchBound s /\ (forall t, o = Some t -> (length t <= length needs)%nat).
Proof.
  destruct nd as [[nm z] ty]. unfold t_discharge. assert (R : forall a b c, (length (retain_needs a b c needs) <= length needs)%nat) by (intros; apply filter_length_le).
  destruct (find _ _) as [n |].
  - exists {| se_need := (nm, z, ty); se_hashes := [] |}. split; [reflexivity |]. split; [split; [apply Forall_nil | cbn; lia] |]. intros t [= <-]. apply R.
  - destruct (table_hashes e nm (nsec3_search res z) []) as [T1 T2]; [cbn; lia |]. destruct (t_nsec3_table e nm (nsec3_search res z) []) as [evs tbl]. cbn [fst] in *.
    exists {| se_need := (nm, z, ty); se_hashes := evs |}. split; [reflexivity |]. split; [split; [exact T1 | cbn [se_hashes]; cbn in T2; lia] |]. destruct (nsec3_find _ _ _) as [[n m] |]; [intros t [= <-]; apply R | discriminate].
Qed.
Lemma search_clean s : SearchBound s -> Forall (fun ev => ~ refused ev) (search_events s).
Proof. intros [H _]. apply Forall_cons; [intros [] | apply hash_clean, H]. Qed.
Lemma search_answered e s : SearchBound s -> Forall (answered e) (search_events s).
Proof. intros [H _]. apply Forall_cons; [exact I | apply hash_answered, H]. Qed.
Lemma proof_work e res fuel : forall needs, let '(evs, o) := t_proof_loop e res fuel needs in
  exists ss, evs = flat_map search_events ss /\ Forall SearchBound ss /\ (length ss <= length needs)%nat.
Proof.
  induction fuel as [| f IH]; intros [| nd t]; cbn [t_proof_loop]; try (exists []; split; [reflexivity |]; split; [apply Forall_nil | cbn; lia]).
  pose proof (discharge_work e res nd t) as D. destruct (t_discharge e res nd t) as [evs [t' |]].
  - destruct D as (s & -> & B & L). specialize (L t' eq_refl). specialize (IH t'). destruct (t_proof_loop e res f t') as [evs' o]. destruct IH as (ss & -> & B' & L'). exists (s :: ss). split; [reflexivity |]. split; [apply Forall_cons; auto | cbn [length]; lia].
  - destruct D as (s & -> & B & _). exists [s]. split; [cbn [flat_map]; rewrite app_nil_r; reflexivity |]. split; [apply Forall_cons; [exact B | apply Forall_nil] | cbn [length]; lia].
Qed.

(** ** Runs *)
Lemma run_work e dbg fuel inp : SortsNeeds e -> let '(evs, o) := t_verify_rr_stream e dbg fuel inp in
  (exists vs ss, evs = flat_map visit_events vs ++ flat_map search_events ss /\ Forall (VisitBound inp) vs /\ Forall SearchBound ss /\ (length vs <= fuel)%nat /\ (length ss <= checks_of vs)%nat) /\
  Forall (answered e) evs /\ Stops evs (o = Err Invalid).
Proof.
  intros SN. unfold t_verify_rr_stream. pose proof (zones_work e dbg inp fuel vinit (Forall_nil _)) as Z. destruct (t_zone_loop e dbg inp fuel vinit) as [evs o]. destruct Z as (vs & -> & B & F & A & S0 & N1).
  assert (NOSS : exists vs0 ss, flat_map visit_events vs = flat_map visit_events vs0 ++ flat_map search_events ss /\ Forall (VisitBound inp) vs0 /\ Forall SearchBound ss /\ (length vs0 <= fuel)%nat /\ (length ss <= checks_of vs0)%nat).
  { exists vs, []. cbn [flat_map length]. rewrite app_nil_r. split; [reflexivity |]. split; [exact B |]. split; [apply Forall_nil |]. split; [exact F | lia]. }
  destruct o as [st | x | |].
  2-4: split; [exact NOSS |]; split; [exact A | eapply stops_impl; [| exact S0]; congruence].
  unfold t_finish_verify. destruct (is_nil (v_res st)); [rewrite app_nil_r; split; [exact NOSS |]; split; [exact A | eapply stops_impl; [| exact S0]; reflexivity] |].
  destruct (v_expiry st <=? v_inception st); [rewrite app_nil_r; split; [exact NOSS |]; split; [exact A | eapply stops_impl; [| exact S0]; reflexivity] |].
  pose proof (proof_work e (v_res st) (length (e_sort_needs e (v_needs st))) (rev (e_sort_needs e (v_needs st)))) as PW. destruct (t_proof_loop _ _ _ _) as [evs' o]. destruct PW as (ss & -> & B' & L').
  rewrite rev_length, <- (Permutation_length (SN (v_needs st))) in L'. specialize (N1 st eq_refl). cbn [v_needs vinit length] in N1.
  split; [exists vs, ss; split; [reflexivity |]; split; [exact B |]; split; [exact B' |]; split; [exact F | lia] |]. split.
  - apply Forall_app. split; [exact A |]. clear - B'. induction B'; [apply Forall_nil |]. cbn [flat_map]. apply Forall_app. split; [apply search_answered; assumption | assumption].
  - apply stops_app; [eapply stops_impl; [| exact S0]; discriminate |]. apply stops_clean. clear - B'. induction B'; [apply Forall_nil |]. cbn [flat_map]. apply Forall_app. split; [apply search_clean; assumption | assumption].
Qed.
Lemma run_shape e dbg fuel inp : SortsNeeds e -> exists vs ss, fst (t_verify_rr_stream e dbg fuel inp) = flat_map visit_events vs ++ flat_map search_events ss /\
  Forall (VisitBound inp) vs /\ Forall SearchBound ss /\ (length vs <= fuel)%nat /\ (length ss <= checks_of vs)%nat /\ Forall (answered e) (fst (t_verify_rr_stream e dbg fuel inp)).
Proof.
  intros SN. pose proof (run_work e dbg fuel inp SN) as R. destruct (t_verify_rr_stream e dbg fuel inp) as [evs o]. destruct R as ((vs & ss & R1 & R2 & R3 & R4 & R5) & A & _). exists vs, ss. auto 10.
Qed.
Lemma run_stops e dbg fuel inp pre ev post : SortsNeeds e -> fst (t_verify_rr_stream e dbg fuel inp) = pre ++ ev :: post -> refused ev -> post = [] /\ verify_rr_stream e dbg fuel inp = Err Invalid.
Proof.
  intros SN E R. rewrite <- same_run. pose proof (run_work e dbg fuel inp SN) as W. destruct (t_verify_rr_stream e dbg fuel inp) as [evs o]. cbn [fst snd] in *. subst evs. destruct W as (_ & _ & [C | (p & v & E & RV & C & H)]).
  - exfalso. rewrite Forall_forall in C. apply (C ev); [apply in_or_app; right; left; reflexivity | exact R].
  - split; [| exact H]. destruct post as [| x post] using rev_ind; [reflexivity | exfalso]. clear IHpost. change (ev :: post ++ [x]) with ((ev :: post) ++ [x]) in E. rewrite app_assoc in E. apply app_inj_tail in E as [<- _].
    rewrite Forall_forall in C. apply (C ev); [apply in_or_app; right; left; reflexivity | exact R].
Qed.

(** ** Sums *)
Lemma sigs_by_split inp z zs : ~ In z zs -> (sigs_by inp z + length (filter (fun r => match r with RR_RRSig s => existsb (bytes_eqb (rs_key_name s)) zs && negb (rs_ty s =? 48)%N | _ => false end) inp) <=
  length (filter (fun r => match r with RR_RRSig s => existsb (bytes_eqb (rs_key_name s)) (z :: zs) && negb (rs_ty s =? 48)%N | _ => false end) inp))%nat.
Proof.
  intros NI. unfold sigs_by. induction inp as [| r t IH]; [cbn; lia |]. cbn [filter]. destruct r; try exact IH. cbn [existsb] in *. destruct (bytes_eqb (rs_key_name r) z) eqn:E; cbn [orb andb].
  - apply bytes_eqb_eq in E. replace (existsb (bytes_eqb (rs_key_name r)) zs) with false; [destruct (negb _); cbn [andb length]; lia |]. symmetry. apply Bool.not_true_iff_false. intros H. apply existsb_exists in H as (y & Y1 & Y2). apply bytes_eqb_eq in Y2. subst. congruence.
  - destruct (existsb _ zs && negb _); cbn [length]; lia.
Qed.
Lemma sigs_sum inp zs : NoDup zs -> (fold_right (fun z n => sigs_by inp z + n) 0 zs <= length (filter (fun r => match r with RR_RRSig s => existsb (bytes_eqb (rs_key_name s)) zs && negb (rs_ty s =? 48)%N | _ => false end) inp))%nat.
Proof. induction 1 as [| z zs NI ND IH]; [cbn; lia |]. cbn [fold_right]. pose proof (sigs_by_split inp z zs NI). lia. Qed.
Lemma once_checks inp vs : Forall (VisitBound inp) vs -> NoDup (map vi_zone vs) -> (checks_of vs <= length vs + length (rrsigs inp))%nat.
Proof.
  intros B ND. assert (A : (checks_of vs <= length vs + fold_right (fun z n => sigs_by inp z + n) 0 (map vi_zone vs))%nat).
  { clear ND. induction B as [| v vs (_ & _ & _ & H) B IH]; [cbn; lia |]. unfold checks_of in *. cbn [flat_map map fold_right length]. rewrite app_length. lia. }
  pose proof (sigs_sum inp _ ND) as S. assert (Q : (length (filter (fun r => match r with RR_RRSig s => existsb (bytes_eqb (rs_key_name s)) (map vi_zone vs) && negb (rs_ty s =? 48)%N | _ => false end) inp) <= length (rrsigs inp))%nat).
  { clear. unfold rrsigs. induction inp as [| r t IH]; [cbn; lia |]. cbn [filter flat_map]. rewrite app_length. destruct r; cbn [as_rrsig length]; try lia. destruct (_ && _); cbn [length]; lia. }
  lia.
Qed.

(** ** Totals *)
Lemma checks_app a b : checks (a ++ b) = (checks a + checks b)%nat.
Proof. unfold checks. rewrite filter_app, app_length. reflexivity. Qed.
Lemma check_len evs : Forall is_check evs -> checks evs = List.length evs.
Proof. unfold checks. induction 1 as [| x l H F IH]; [reflexivity |]. cbn [filter]. destruct x; cbn in H; try contradiction. cbn [checkb List.length]. lia. Qed.
Lemma hash_checks evs : Forall is_hash evs -> checks evs = 0%nat.
Proof. unfold checks. induction 1 as [| x l H F IH]; [reflexivity |]. destruct x; cbn in H; try contradiction; exact IH. Qed.
Lemma visit_checks inp v : VisitBound inp v -> checks (visit_events v) = length (vi_checks v).
Proof. intros (A & _ & B & _). unfold visit_events. change (E_Zone (vi_zone v) :: vi_hashes v ++ vi_checks v) with ([E_Zone (vi_zone v)] ++ vi_hashes v ++ vi_checks v). rewrite !checks_app, (hash_checks _ A), (check_len _ B). reflexivity. Qed.
Lemma visits_checks inp vs : Forall (VisitBound inp) vs -> checks (flat_map visit_events vs) = checks_of vs.
Proof. induction 1 as [| v vs H F IH]; [reflexivity |]. unfold checks_of in *. cbn [flat_map]. rewrite checks_app, app_length, (visit_checks _ _ H), IH. reflexivity. Qed.
Lemma searches_checks ss : Forall SearchBound ss -> checks (flat_map search_events ss) = 0%nat.
Proof. induction 1 as [| s ss [H _] F IH]; [reflexivity |]. cbn [flat_map]. rewrite checks_app, IH. unfold search_events. change (E_Search (se_need s) :: se_hashes s) with ([E_Search (se_need s)] ++ se_hashes s). rewrite checks_app, (hash_checks _ H). reflexivity. Qed.
Lemma visited_app a b : visited (a ++ b) = visited a ++ visited b.
Proof. apply flat_map_app. Qed.
Lemma visited_none evs : Forall (fun ev => is_hash ev \/ is_check ev) evs -> visited evs = [].
Proof. induction 1 as [| x l H F IH]; [reflexivity |]. destruct x; cbn in H; destruct H as [[] | []]; exact IH. Qed.
Lemma visits_visited inp vs : Forall (VisitBound inp) vs -> visited (flat_map visit_events vs) = map vi_zone vs.
Proof.
  induction 1 as [| v vs (A & _ & B & _) F IH]; [reflexivity |]. cbn [flat_map map]. rewrite visited_app, IH. unfold visit_events. cbn [app visited flat_map]. fold (visited (vi_hashes v ++ vi_checks v)). rewrite visited_none; [reflexivity |].
  apply Forall_app. split; [eapply Forall_impl; [| exact A] | eapply Forall_impl; [| exact B]]; intros; auto.
Qed.
Lemma searches_visited ss : Forall SearchBound ss -> visited (flat_map search_events ss) = [].
Proof. induction 1 as [| s ss [H _] F IH]; [reflexivity |]. cbn [flat_map]. rewrite visited_app, IH, app_nil_r. unfold search_events. cbn [visited flat_map app]. apply visited_none. eapply Forall_impl; [| exact H]; intros; auto. Qed.
Lemma sigs_by_le inp z : (sigs_by inp z <= length (rrsigs inp))%nat.
Proof. rewrite <- sigs_len. apply filter_length_le. Qed.
Lemma run_checks e dbg fuel inp : SortsNeeds e -> let evs := fst (t_verify_rr_stream e dbg fuel inp) in
  (length (visited evs) <= fuel /\ checks evs <= length (visited evs) * (1 + length (rrsigs inp)) /\ (NoDup (visited evs) -> checks evs <= length (visited evs) + length (rrsigs inp)))%nat.
Proof.
  intros SN. cbv zeta. destruct (run_shape e dbg fuel inp SN) as (vs & ss & -> & A & B & F & _ & _). rewrite visited_app, checks_app, (visits_visited _ _ A), (searches_visited _ B), (visits_checks _ _ A), (searches_checks _ B), app_nil_r, map_length. split; [exact F |].
  split; [| intros ND; pose proof (once_checks inp vs A ND); lia]. clear F B. induction A as [| v vs (_ & _ & _ & H) A IH]; [cbn; lia |]. unfold checks_of in *. cbn [flat_map length]. rewrite app_length. pose proof (sigs_by_le inp (vi_zone v)). lia.
Qed.
