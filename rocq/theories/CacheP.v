(** Proofs of C81: the advertised lifetime against the signatures. *)
From Verif Require Import Base BaseP NameM NameSpec RRM SerM ValM RecSpec RecP2 SignedP ValSpec ValP3 TimeSpec TimeP ClockP QueryM QuerySpec QueryP4 TextSpec HttpM HttpSpec HttpP ServerM ServerSpec ServerP ServerP2 CacheSpec.
From Coq Require Import Lia List.
Import ListNotations.
Local Open Scope N_scope.

Lemma capped_within e dbg fuel items v ttl now : Forall wf_rr (map fst items) -> is_min ttl (map snd items) -> Forall (Capped now) items ->
  verify_rr_stream e dbg fuel (map fst items) = Ok v -> ttl <= vr_max_cache_ttl v /\ (now + ttl < 2 ^ 32 -> now + ttl <= vr_expires v).
Proof.
  intros W [_ M] C H. assert (Hh : Forall Held (map fst items)) by (eapply Forall_impl; [exact wf_held|exact W]).
  destruct (verified_window e dbg fuel _ v Hh H) as (used & _ & U & _ & _ & [I2 _] & [I3 _] & _).
  rewrite Forall_forall in M, C.
  assert (X : forall s, In s used -> exists t, In (RR_RRSig s, t) items /\ ttl <= t).
  { intros s Hs. apply U in Hs as [Hs _]. apply in_map_iff in Hs as ([r t] & E & I). cbn in E. subst r. exists t. split; [exact I|]. apply M. apply in_map_iff. exists (RR_RRSig s, t). auto. }
  split.
  - apply in_map_iff in I3 as (s & <- & Hs). destruct (X s Hs) as (t & I & L). apply C in I. cbn in I. lia.
  - intros B. apply in_map_iff in I2 as (s & <- & Hs). destruct (X s Hs) as (t & I & L). apply C in I. cbn in I. destruct I as (_ & to & S & Wi & L2).
    rewrite (resolve_off _ to S Wi). destruct (N.ltb_spec to (2 ^ 32)); nums; lia.
Qed.

Lemma build_capped dbg fuel n ty segs proof ttl sent : name_try_from n = Some n -> ty < 65536 -> is_bytes (concat segs) ->
  build_proof dbg fuel n ty segs = (Ok (proof, ttl), sent) ->
  exists ms itemss rest, concat segs = flat_map frame ms ++ rest /\ Forall2 (Response (negb dbg)) ms itemss /\
    forall now, Forall wf_rr (map fst (concat itemss)) -> Forall (Capped now) (concat itemss) ->
    forall e dbg' fuel' inp v, parse_rr_stream dbg' proof = Ok inp -> verify_rr_stream e dbg' fuel' inp = Ok v ->
      ttl <= vr_max_cache_ttl v /\ (now + ttl < 2 ^ 32 -> now + ttl <= vr_expires v).
Proof.
  intros V T B H. destruct (build_proof_sound _ _ _ _ _ _ _ _ V T B H) as (ms & its & rest & E & _ & R & _ & M & P).
  exists ms, its, rest. split; [exact E|]. split; [exact R|]. intros now W C e dbg' fuel' inp v Hp Hv. rewrite (P dbg' W) in Hp. injection Hp as <-.
  eapply capped_within; eassumption.
Qed.

Lemma asked_line cs n ty : (forall prove, serve prove cs = Some (match prove n ty with Some (p, ttl) => Proof p ttl | None => no_proof end)) ->
  exists line, AsksFor line n ty.
Proof.
  intros H. specialize (H (fun a b => Some (a, b))). cbn beta iota in H. apply serve_sound in H as (line & a & b & _ & A & E). injection E as -> ->. exists line. exact A.
Qed.
Lemma segments_bytes rs : (forall d, In (RBytes d) rs -> is_bytes d) -> is_bytes (concat (segments rs)).
Proof.
  induction rs as [|[|d|] rs IH]; intros H; cbn [segments]; try apply Forall_nil. cbn [concat]. apply Forall_app. split; [apply H; left; reflexivity|].
  apply IH. intros d' I. apply H. right. exact I.
Qed.

Lemma served_capped dbg acts i t : (forall d, In (RBytes d) (resolver_of i 0 acts) -> is_bytes d) -> nth_error (sv_tasks (run_server dbg acts)) i = Some t ->
  tk_out t = [] \/ In (tk_out t) error_messages \/
  exists proof ttl num age rs ms itemss rest, tk_out t = http_message (proof_lines num age) proof /\ Decimal (length_of proof) num /\ Decimal ttl age /\
    resolver_of i 0 acts = RConnected :: rs /\ concat (segments rs) = flat_map frame ms ++ rest /\ Forall2 (Response (negb dbg)) ms itemss /\
    forall now, Forall wf_rr (map fst (concat itemss)) -> Forall (Capped now) (concat itemss) ->
    forall e dbg' fuel' inp v, parse_rr_stream dbg' proof = Ok inp -> verify_rr_stream e dbg' fuel' inp = Ok v ->
      ttl <= vr_max_cache_ttl v /\ (now + ttl < 2 ^ 32 -> now + ttl <= vr_expires v).
Proof.
  intros B H. destruct (server_served dbg acts i t B H) as [S1 S2].
  assert (D : tk_ctl t = Ended \/ tk_ctl t <> Ended) by (destruct (tk_ctl t); (left; reflexivity) || (right; discriminate)).
  destruct D as [D|D]; [|left; auto]. specialize (S1 D). inversion S1 as [SA | r SA | n ty o sn ou SA BA OA]; subst; auto.
  - right. left. specialize (SA (fun _ _ => None)). destruct (serve_headers _ _ _ SA) as [E|(p & ttl & n & ty & num & age & X & _)]; [exact E|discriminate X].
  - destruct (asked_line _ _ _ SA) as [line A]. destruct (asks_valid _ _ _ A) as (V & T & _).
    destruct o as [[p ttl]|[]| |]; auto.
    + right. right. unfold built in BA. destruct (resolver_of i 0 acts) as [|[|d|] rs] eqn:ER; try discriminate BA.
      assert (BS : is_bytes (concat (segments rs))) by (apply segments_bytes; intros d I; apply B; right; exact I).
      destruct (build_proof dbg 10 n ty (segments rs)) as [o' sents] eqn:BP. cbn [fst snd] in BA. injection BA as -> _.
      destruct (build_capped _ _ _ _ _ _ _ _ V T BS BP) as (ms & its & rest & E1 & E2 & E3).
      destruct (proof_rendered p ttl) as (num & age & D1 & D2 & D3). exists p, ttl, num, age, rs, ms, its, rest. rewrite OA. auto 10.
    + right. left. rewrite OA. vm_compute. auto 10.
Qed.
