(** What one connection can cost, continued: the server. *)
From Verif Require Import Base BaseP NameM NameSpec NameP WireM WireSpec RRM SerM RecSpec RecP RecP2 ValSpec ValM HeldP ValP JsonM TextSpec TextP QueryM QuerySpec QBufP QueryP QueryP2 QueryP3 QueryP4 HttpM HttpSpec HttpP SizeP ServerM ServerSpec ServerP ServerP2 CacheP CostSpec CostP.
From Coq Require Import Lia Permutation PeanoNat String.
Import List.ListNotations.
Local Open Scope N_scope.

(** ** Messages in frames *)
Lemma framed_short ms : is_bytes (flat_map frame ms) -> Forall (fun m => len m <= 65535) ms.
Proof.
  intros B. induction ms as [| m ms IH]; [constructor |]. cbn [flat_map] in B. apply is_bytes_app in B as [B1 B2]. constructor; [| apply IH; exact B2].
  unfold frame in B1. apply is_bytes_app in B1 as [B1 _]. unfold u16 in B1. apply Forall_inv in B1. unfold is_u8, length_of in B1. unfold len.
  set (x := N.of_nat (List.length m)) in *. pose proof (N.div_mod x 256 ltac:(discriminate)). pose proof (N.mod_lt x 256 ltac:(discriminate)). lia.
Qed.
Lemma framed_total ms : Forall (fun m => len m <= 65535) ms -> len (flat_map frame ms) <= 65537 * len ms.
Proof. induction 1 as [| m ms H F IH]; [cbn; lia |]. cbn [flat_map]. rewrite len_app, framed, len_cons. lia. Qed.
Lemma framed_bytes ms : is_bytes (flat_map frame ms) -> Forall is_bytes ms.
Proof.
  induction ms as [| m ms IH]; intros B; [constructor |]. cbn [flat_map] in B. apply is_bytes_app in B as [B1 B2]. constructor; [| apply IH; exact B2].
  unfold frame in B1. apply is_bytes_app in B1 as [_ B1]. exact B1.
Qed.
Lemma accepted_all tr : Forall (fun c => is_ok (snd c) = true) tr -> accepted tr = map fst tr.
Proof. unfold accepted. induction 1 as [| c tr H F IH]; [reflexivity |]. cbn [filter map]. rewrite H. cbn [map]. rewrite IH. reflexivity. Qed.
Lemma map_fst_bytes (tr : list (list N * outcome unit (list qbuf))) : Forall is_bytes (map fst tr) -> Forall (fun c => is_bytes (fst c)) tr.
Proof. induction tr as [| c tr IH]; intros F; [constructor |]. cbn [map] in F. inversion F; subst. constructor; auto. Qed.

(** ** What the task holds while it builds the proof *)
Lemma proving_small dbg n ty q0 tr b : builder_new n ty = Ok (builder_init, q0) -> Driven dbg builder_init tr b -> Forall (fun c => is_ok (snd c) = true) tr ->
  is_bytes (flat_map frame (map fst tr)) -> len (flat_map frame (map fst tr)) <= TAKEN /\ len (pb_proof b) <= PROOF.
Proof.
  intros E D OK B. pose proof (framed_short _ B) as S. pose proof (framed_total _ S) as T. pose proof (map_fst_bytes _ (framed_bytes _ B)) as FB.
  pose proof (driven_bound _ _ _ _ _ _ _ E D FB) as L. rewrite (accepted_all _ OK) in L. pose proof (buffer_small _ _ _ _ _ _ _ E (driven_calls _ _ _ _ D) FB) as PS. change (length_of (pb_proof b)) with (len (pb_proof b)) in PS.
  assert (X : fold_right (fun c a => length_of (fst c) - 17 + a) 0 tr <= 65518 * len (map fst tr)).
  { clear -S. induction tr as [| c tr IH]; [cbn; lia |]. cbn [map] in S. inversion S as [| ? ? S1 S2]; subst. cbn [map fold_right]. rewrite len_cons. specialize (IH S2). change (length_of (fst c)) with (len (fst c)). lia. }
  assert (Y : len (map fst tr) <= 10) by (unfold len; lia). unfold TAKEN, PROOF. lia.
Qed.

(** ** Answers *)
Lemma decimal_short n s k : Decimal n s -> n < 10 ^ k -> 1 <= k -> len s <= k.
Proof.
  intros (NE & F & V & [-> | H]) L K; [exact K |]. destruct s as [| d x]; [congruence |]. cbn [hd] in H. inversion F as [| ? ? Fd Fx]; subst. unfold is_digit in Fd.
  pose proof (dv_bound x Fx (d - 48)) as [_ U]. unfold digits_value in L. cbn [fold_left] in L. rewrite N.mul_0_r, N.add_0_l in L. unfold dv in U. rewrite len_cons.
  assert (P : 0 < 10 ^ len x) by (apply N.neq_0_lt_0, N.pow_nonzero; lia). assert (Q : 10 ^ len x < 10 ^ k) by nia. apply N.pow_lt_mono_r_iff in Q; lia.
Qed.
Lemma errors_short m : In m error_messages -> len m <= ANSWER.
Proof.
  intros I. assert (F : forallb (fun x => len x <=? 1000) error_messages = true) by (vm_compute; reflexivity). rewrite forallb_forall in F. apply F, N.leb_le in I. unfold ANSWER. lia.
Qed.
Lemma proof_short p ttl : len p <= PROOF -> ttl < 2 ^ 32 -> len (render (Proof p ttl)) <= len p + 181.
Proof.
  intros P T. destruct (proof_rendered p ttl) as (num & age & D1 & D2 & ->). change (length_of p) with (len p) in D1. apply (decimal_short _ _ 8) in D1; [| unfold PROOF in P; change (10 ^ 8) with 100000000; lia | lia].
  apply (decimal_short _ _ 10) in D2; [| change (10 ^ 10) with 10000000000; change (2 ^ 32) with 4294967296 in T; lia | lia].
  unfold http_message, proof_lines. cbn [map List.concat]. rewrite !len_app.
  change (len (bs "HTTP/1.1 200 OK")) with 15. change (len (bs "Content-Length: ")) with 16. change (len (bs "Content-Type: application/octet-stream")) with 38. change (len (bs "Cache-Control: public, max-age=")) with 31.
  change (len (bs ", s-maxage=")) with 11. change (len (bs "Access-Control-Allow-Origin: *")) with 30. change (len [13; 10]) with 2. change (@len N []) with 0. lia.
Qed.
Lemma built_ttl dbg fuel n ty segs proof ttl sent : name_try_from n = Some n -> ty < 65536 -> is_bytes (List.concat segs) ->
  build_proof dbg fuel n ty segs = (Ok (proof, ttl), sent) -> ttl < 2 ^ 32.
Proof.
  intros V T B H. destruct (build_proof_sound _ _ _ _ _ _ _ _ V T B H) as (ms & its & rest & E & L & R & -> & [M _] & _).
  rewrite E in B. apply is_bytes_app in B as [B _]. apply framed_bytes in B. assert (F : Forall (fun rt => is_u32 (snd rt)) (List.concat its)).
  { clear -R B. induction R as [| m i ms its R Rs IH]; [constructor |]. inversion B; subst. cbn [List.concat]. apply Forall_app. split; [| apply IH; assumption].
    destruct (response_held _ _ _ R) as [X _]; [assumption |]. eapply Forall_impl; [| exact X]. intros a Ha. exact (proj2 Ha). }
  apply in_map_iff in M as (rt & <- & I). rewrite Forall_forall in F. exact (F _ I).
Qed.
Lemma served_small dbg cs rs out sent : bytes_rs rs -> Served dbg cs rs out sent -> len out <= ANSWER /\ len sent <= SENT.
Proof.
  intros B S. inversion S as [SA | r SA | n ty o sn ou SA BA OA]; subst.
  - cbn. unfold ANSWER, SENT. lia.
  - split; [| cbn; unfold SENT; lia]. specialize (SA (fun _ _ => None)). destruct (serve_answers _ _ _ SA) as [[E _] | (p & ttl & n & ty & _ & X)]; [apply errors_short; exact E | discriminate X].
  - destruct (asked_line _ _ _ SA) as [line A]. destruct (asks_valid _ _ _ A) as (V & T & _). unfold built in BA.
    assert (NP : len (render no_proof) <= ANSWER) by (apply errors_short; vm_compute; auto 10).
    destruct rs as [| [| d |] rs]; try (injection BA as <- <-; split; [exact NP | cbn; unfold SENT; lia]).
    assert (BS : is_bytes (List.concat (segments rs))) by (apply segments_bytes; intros d I; apply B; right; exact I).
    destruct (build_proof dbg 10 n ty (segments rs)) as [o' sents] eqn:BP. cbn [fst snd] in BA. injection BA as <- <-.
    split; [| exact (proj1 (build_sends _ _ _ _ _ _ _ V T BS BP))]. destruct o' as [[p ttl] | [] | |]; [| exact NP | cbn; unfold ANSWER; lia | cbn; unfold ANSWER; lia].
    pose proof (built_small _ _ _ _ _ _ _ _ V T BS BP) as P. change (length_of p) with (len p) in P. pose proof (proof_short p ttl P (built_ttl _ _ _ _ _ _ _ _ V T BS BP)). unfold ANSWER. lia.
Qed.

(** ** The server *)
Lemma task_cost dbg acts i t : (forall d, In (RBytes d) (resolver_of i 0 acts) -> is_bytes d) -> nth_error (sv_tasks (run_server dbg acts)) i = Some t ->
  length_of (tk_out t) <= ANSWER /\ length_of (tk_sent t) <= SENT /\
  match tk_ctl t with
  | Reading buf => length_of buf < REQUEST
  | Proving b got => length_of (pb_proof b) <= PROOF /\ exists segs, resolver_of i 0 acts = RConnected :: map RBytes segs ++ tk_resolver t /\ length_of (List.concat segs) <= TAKEN + length_of got
  | _ => True
  end.
Proof.
  intros B H. destruct (server_good dbg acts i t B H) as [I _]. unfold Inv in I. destruct (tk_ctl t) as [buf | n ty | b got |] eqn:C.
  - destruct I as (-> & -> & _ & L & _). cbn. unfold ANSWER, SENT. split; [lia |]. split; [lia | exact L].
  - destruct I as (-> & -> & _). cbn. unfold ANSWER, SENT. split; [lia |]. split; [lia | exact Logic.I].
  - destruct I as (-> & n & ty & pre & fuel & sents & tr & A & RS & -> & D & DR & OK & CE). destruct (asks_name _ _ _ A) as [V T]. change (bytes_rs (resolver_of i 0 acts)) in B. pose proof B as B0. rewrite RS in B0. apply pre_bytes in B0.
    destruct (query_built n ty V T) as (q & BQ & _ & _). pose proof B0 as B1. rewrite CE in B1. apply is_bytes_app in B1 as [B1 Bg]. destruct (proving_small _ _ _ _ _ _ BQ DR OK B1) as [P1 P2].
    split; [cbn; unfold ANSWER; lia |]. split.
    + specialize (D []). rewrite app_nil_r in D. destruct (drive dbg fuel b [got] sents) as [o sent'] eqn:DE. pose proof (proj1 (build_sends _ _ _ _ _ _ _ V T B0 D)) as S.
      assert (Bgg : is_bytes (List.concat [got])) by (cbn [List.concat]; rewrite app_nil_r; exact Bg). destruct (drive_sound _ _ _ _ _ _ _ Bgg DE tr _ DR) as (tr' & b' & rest & _ & _ & _ & _ & _ & ->). rewrite concat_app, len_app in S. change (length_of (List.concat sents)) with (len (List.concat sents)). lia.
    + split; [exact P2 |]. exists pre. split; [exact RS |]. change (length_of (List.concat pre)) with (len (List.concat pre)). rewrite CE, len_app. change (length_of got) with (len got). lia.
  - specialize (I [] []). rewrite !app_nil_r in I. destruct (served_small _ _ _ _ _ B I) as [O S]. split; [exact O |]. split; [exact S | exact Logic.I].
Qed.

(** ** All the connections together: no bound *)
Definition one (i : nat) : list action := [Accept; FromClient i (SData (repeat 65 4095)); Poll i].
Definition reader : task := {| tk_ctl := Reading (repeat 65 4095); tk_client := []; tk_resolver := []; tk_out := []; tk_sent := [] |}.
Lemma update_last f l x : update (List.length l) f (l ++ [x]) = l ++ [f x].
Proof. induction l as [| y l IH]; [reflexivity |]. cbn [List.length app update]. rewrite IH. reflexivity. Qed.
Lemma one_more dbg l : fold_left (act dbg) (one (List.length l)) {| sv_up := true; sv_tasks := l |} = {| sv_up := true; sv_tasks := l ++ [reader] |}.
Proof. unfold one. cbn [fold_left act negb sv_up on_task sv_tasks]. unfold on_task. cbn [sv_up sv_tasks]. rewrite !update_last. reflexivity. Qed.
Lemma many_readers dbg k : run_server dbg (flat_map one (seq 0 k)) = {| sv_up := true; sv_tasks := repeat reader k |}.
Proof.
  induction k as [| k IH]; [reflexivity |]. rewrite seq_S, flat_map_app. unfold run_server in *. rewrite fold_left_app, IH. cbn [flat_map plus]. rewrite app_nil_r.
  pose proof (one_more dbg (repeat reader k)) as O. rewrite repeat_length in O. rewrite O, <- repeat_cons. reflexivity.
Qed.
Lemma readers_hold k : all_held {| sv_up := true; sv_tasks := repeat reader k |} = 4095 * N.of_nat k.
Proof.
  unfold all_held. cbn [sv_tasks]. induction k as [| k IH]; [reflexivity |]. cbn [repeat fold_right]. rewrite IH. change (holds reader) with 4095. lia.
Qed.
Lemma total_refuted : ~ (exists most, forall dbg acts, (forall i d, In (RBytes d) (resolver_of i 0 acts) -> is_bytes d) -> all_held (run_server dbg acts) <= most).
Proof.
  intros [most H]. specialize (H false (flat_map one (seq 0 (S (N.to_nat most))))). rewrite many_readers, readers_hold in H. enough (4095 * N.of_nat (S (N.to_nat most)) <= most) by lia. apply H.
  intros i d. generalize 0%nat at 1. generalize (seq 0 (S (N.to_nat most))). intros l. induction l as [| j l IH]; intros k I; [destruct I |].
  cbn [flat_map one app resolver_of] in I. exact (IH _ I).
Qed.
