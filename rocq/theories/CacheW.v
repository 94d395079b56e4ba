(** Witnesses for Prop_Cache. *)
From Verif Require Import Base BaseP NameM NameSpec WireM RRM SerM ValM RecSpec RecP2 SignedP ValSpec ValW OrderW QueryM QuerySpec QueryW LiveSpec LiveW LiveW2 ServerM ServerW CacheSpec TimeSpec.
From Coq Require Import String Lia List.
Import ListNotations.
Local Open Scope N_scope.

(** The resolver of LiveW with another TTL. *)
Definition c_resp (ttl : N) (m : list N) (t : N) : list N :=
  let l := lookup l_small l_plain (bs "x.a.") 1 m t in q_msg q_ok (len l) 0 (flat_map (fun r => write_rr r ttl) l).
Definition c_segs (ttl : N) : list (list N) := [flat_map (fun q => frame (c_resp ttl (fst q) (snd q))) sw_qs].
Definition c_built (ttl : N) : list N * N := match fst (build_proof false 10 (bs "x.a.") 1 (c_segs ttl)) with Ok r => r | _ => ([], 0) end.
Definition c_inp : list RR := match parse_rr_stream false (fst (c_built 60)) with Ok l => l | _ => [] end.
Definition c_items (ttl : N) : list (RR * N) := List.concat (map (fun q => map (fun r => (r, ttl)) (lookup l_small l_plain (bs "x.a.") 1 (fst q) (snd q))) sw_qs).
Definition c_verified : option verified := match verify_rr_stream echo_env false 10 c_inp with Ok v => Some v | _ => None end.

Lemma lifetime_refuted : ~ (forall dbg fuel n ty segs proof ttl sent e fuel' inp v, name_try_from n = Some n -> ty < 65536 -> is_bytes (concat segs) ->
  build_proof dbg fuel n ty segs = (Ok (proof, ttl), sent) -> parse_rr_stream dbg proof = Ok inp -> verify_rr_stream e dbg fuel' inp = Ok v ->
  ttl <= vr_max_cache_ttl v).
Proof.
  intros X. assert (B : is_bytes (concat (c_segs 7200))) by (apply bytes_ok_forall; vm_compute; reflexivity).
  destruct (build_proof false 10 (bs "x.a.") 1 (c_segs 7200)) as [o sent] eqn:E. assert (Eo : o = Ok (c_built 7200)) by (change o with (fst (o, sent)); rewrite <- E; vm_compute; reflexivity).
  rewrite Eo in E. destruct (c_built 7200) as [p ttl] eqn:C.
  destruct c_verified as [v|] eqn:V; [|vm_compute in V; discriminate V].
  specialize (X false 10%nat (bs "x.a.") 1 (c_segs 7200) p ttl sent echo_env 10%nat c_inp v). cbv beta in X.
  assert (L : ttl <= vr_max_cache_ttl v).
  { apply X; [vm_compute; reflexivity|reflexivity|exact B|exact E| |].
    - change p with (fst (p, ttl)). rewrite <- C. vm_compute. reflexivity.
    - unfold c_verified in V. destruct (verify_rr_stream echo_env false 10 c_inp) as [v'| | |]; try discriminate V. injection V as ->. reflexivity. }
  assert (T : ttl = 7200) by (change ttl with (snd (p, ttl)); rewrite <- C; vm_compute; reflexivity).
  assert (M : option_map vr_max_cache_ttl (Some v) = Some 3600) by (rewrite <- V; vm_compute; reflexivity). injection M as M. rewrite T, M in L. apply L. reflexivity.
Qed.

Lemma expiry_refuted : ~ (forall dbg fuel n ty segs proof ttl sent e fuel' inp v now, name_try_from n = Some n -> ty < 65536 -> is_bytes (concat segs) ->
  build_proof dbg fuel n ty segs = (Ok (proof, ttl), sent) -> parse_rr_stream dbg proof = Ok inp -> verify_rr_stream e dbg fuel' inp = Ok v ->
  ttl <= vr_max_cache_ttl v -> vr_valid_from v <= now <= vr_expires v -> now + ttl <= vr_expires v).
Proof.
  intros X. assert (B : is_bytes (concat (c_segs 60))) by (apply bytes_ok_forall; vm_compute; reflexivity).
  destruct (build_proof false 10 (bs "x.a.") 1 (c_segs 60)) as [o sent] eqn:E. assert (Eo : o = Ok (c_built 60)) by (change o with (fst (o, sent)); rewrite <- E; vm_compute; reflexivity).
  rewrite Eo in E. destruct (c_built 60) as [p ttl] eqn:C.
  destruct c_verified as [v|] eqn:V; [|vm_compute in V; discriminate V].
  specialize (X false 10%nat (bs "x.a.") 1 (c_segs 60) p ttl sent echo_env 10%nat c_inp v 1999999990).
  assert (T : ttl = 60) by (change ttl with (snd (p, ttl)); rewrite <- C; vm_compute; reflexivity).
  assert (M : option_map (fun v => (vr_max_cache_ttl v, vr_valid_from v, vr_expires v)) (Some v) = Some (3600, 1000000000, 2000000000)) by (rewrite <- V; vm_compute; reflexivity).
  injection M as M1 M2 M3. rewrite M1, M2, M3, T in X.
  assert (L : 1999999990 + 60 <= 2000000000).
  { apply X; [vm_compute; reflexivity|reflexivity|exact B|rewrite T in E; exact E| | |discriminate|split; discriminate].
    - change p with (fst (p, ttl)). rewrite <- C. vm_compute. reflexivity.
    - unfold c_verified in V. destruct (verify_rr_stream echo_env false 10 c_inp) as [v'| | |]; try discriminate V. injection V as ->. reflexivity. }
  apply L. reflexivity.
Qed.

Lemma plain_wf : Forall wf_rr (world_records l_small l_plain).
Proof. unfold l_small, l_plain, l_root, l_zone. l_wf_all. Qed.
Lemma items_wf ttl : Forall wf_rr (map fst (c_items ttl)).
Proof.
  assert (E : forall r, In r (map fst (c_items ttl)) -> In r (world_records l_small l_plain)).
  { intros r H. unfold c_items in H. rewrite concat_map, map_map in H. apply in_concat in H as (l & I & H). apply in_map_iff in I as (q & <- & _).
    rewrite map_map in H. cbn [fst] in H. rewrite map_id in H. unfold lookup in H. unfold world_records. destruct (_ && _); [apply in_app_iff; left; exact H|].
    destruct (find _ l_small) as [z|] eqn:F; [|destruct H]. apply find_some in F as [F _].
    apply in_app_iff. right. apply in_app_iff. destruct (snd q =? 48); [left|destruct (snd q =? 43); [right|destruct H]]; apply in_flat_map; exists z; auto. }
  pose proof plain_wf as W. rewrite Forall_forall in W |- *. auto.
Qed.
Definition capb (now : N) (rt : RR * N) : bool :=
  match fst rt with RR_RRSig s => (snd rt <=? rs_orig_ttl s) && (now + snd rt <=? rs_expiration s) && (27 * 365 * 86400 <=? rs_expiration s) && (rs_expiration s <? 2 ^ 32) | _ => true end.
Lemma capb_ok now rt : capb now rt = true -> Capped now rt.
Proof.
  unfold capb, Capped. destruct (fst rt) as [| | | | | | | | |s| |]; auto. intros H. apply andb_true_iff in H as [H D]. apply andb_true_iff in H as [H C]. apply andb_true_iff in H as [A B].
  apply N.leb_le in A, B, C. apply N.ltb_lt in D. split; [exact A|]. exists (rs_expiration s). split; [apply N.mod_small; exact D|]. split; [split; [exact C|]|exact B].
  eapply N.lt_le_trans; [exact D|]. vm_compute. discriminate.
Qed.
(** A minute before the signatures expire. *)
Lemma cache_example : fst (build_proof false 10 (bs "x.a.") 1 (c_segs 60)) = Ok (c_built 60) /\ snd (c_built 60) = 60 /\ c_inp = map fst (c_items 60) /\
  Forall wf_rr (map fst (c_items 60)) /\ Forall (Capped 1999999940) (c_items 60) /\
  exists v, verify_rr_stream echo_env false 10 c_inp = Ok v /\ vr_max_cache_ttl v = 3600 /\ vr_expires v = 1999999940 + 60.
Proof.
  split; [vm_compute; reflexivity|]. split; [vm_compute; reflexivity|]. split; [vm_compute; reflexivity|]. split; [apply items_wf|]. split.
  - assert (H : forallb (capb 1999999940) (c_items 60) = true) by (vm_compute; reflexivity). rewrite forallb_forall in H. apply Forall_forall. intros rt I. apply capb_ok, H, I.
  - destruct c_verified as [v|] eqn:V; [|vm_compute in V; discriminate V]. exists v.
    assert (M : option_map (fun v => (vr_max_cache_ttl v, vr_expires v)) (Some v) = Some (3600, 2000000000)) by (rewrite <- V; vm_compute; reflexivity).
    injection M as M1 M3. split; [|auto]. unfold c_verified in V. destruct (verify_rr_stream echo_env false 10 c_inp); try discriminate V. injection V as ->. reflexivity.
Qed.
