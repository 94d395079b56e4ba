(** Refutations for C66: the trees of zones with which the proof builder does not work, on the server. *)
From Verif Require Import Base BaseP NameM NameSpec WireM RRM SerM ValM RecSpec RecP2 ValSpec ValP4 QueryM QuerySpec QueryP QueryP2 QueryP3 QueryP4 FuzzP TextSpec HttpM HttpSpec HttpP OrderW LiveSpec LiveP LiveP2 LiveW LiveW2 ServerM ServerSpec ServerP ServerP2 AcceptW.
From Coq Require Import String Lia List PeanoNat Permutation.
Import ListNotations.
Local Open Scope N_scope.

Lemma client_polls n : forall k, client_of 0 k (repeat (Poll 0) n) = [].
Proof. induction n; intros; cbn; auto. Qed.
Lemma resolver_polls n : forall k, resolver_of 0 k (repeat (Poll 0) n) = [].
Proof. induction n; intros; cbn; auto. Qed.
Lemma polls_polls n : polls 0 (repeat (Poll 0) n) = n.
Proof. unfold polls. induction n; cbn; auto. Qed.
Lemma not_in_polls n : ~ In AcceptFails (repeat (Poll 0) n).
Proof. intros H. apply repeat_spec in H. discriminate. Qed.

Lemma frame_bytes m : is_bytes m -> length_of m <= 65535 -> is_bytes (frame m).
Proof.
  intros B L. unfold frame. apply Forall_app. split; [|exact B]. generalize dependent (length_of m). intros k L.
  repeat constructor; unfold is_u8; [apply N.div_lt_upper_bound; [discriminate|lia]|apply N.mod_lt; discriminate].
Qed.

(** One connection, everything there when the task is polled. *)
Lemma delivers_built e dbg zones answers n ty data resp line : AsksFor line n ty ->
  first_4096 [SData (line ++ [13; 10])] = line ++ [13; 10] -> ascii (line ++ [13; 10]) -> FirstLine (line ++ [13; 10]) line ->
  (forall q, In q (questions n ty (map zn_name zones)) -> is_bytes (resp (fst q) (snd q)) /\ length_of (resp (fst q) (snd q)) <= 65535) ->
  Delivers e dbg zones answers n ty data resp line ->
  exists qs sent proof ttl sent', Permutation qs (questions n ty (map zn_name zones)) /\
    Forall2 (fun q f => exists b, Query (fst q) (snd q) b /\ f = frame b) qs sent /\
    is_bytes (List.concat [flat_map frame (map (fun q => resp (fst q) (snd q)) qs)]) /\
    build_proof dbg 10 n ty [flat_map frame (map (fun q => resp (fst q) (snd q)) qs)] = (Ok (proof, ttl), sent') /\
    List.concat sent' = List.concat sent /\
    (forall dbg', exists inp fuel v, parse_rr_stream dbg' proof = Ok inp /\ verify_rr_stream e dbg' fuel inp = Ok v).
Proof.
  intros AF F4 AS FL RB (qs & sent & P & Q & B). set (R := flat_map frame (map (fun q => resp (fst q) (snd q)) qs)) in *.
  assert (BR : is_bytes R).
  { apply Forall_forall. intros c I. apply in_flat_map in I as (m & Im & Ic). apply in_map_iff in Im as (q & <- & Iq).
    destruct (RB q (Permutation_in _ P Iq)) as [B1 L1]. pose proof (frame_bytes _ B1 L1) as F. unfold is_bytes in F. rewrite Forall_forall in F. auto. }
  set (acts := [Accept; FromClient 0 (SData (line ++ [13; 10])); FromResolver 0 RConnected; FromResolver 0 (RBytes R)]).
  set (cs := [SData (line ++ [13; 10])]). set (rs := [RConnected; RBytes R]).
  assert (C0 : client_of 0 0 acts = cs) by reflexivity. assert (R0 : resolver_of 0 0 acts = rs) by reflexivity.
  assert (C1 : client_of 0 0 (acts ++ repeat (Poll 0) (work cs rs)) = cs) by (cbn [acts app client_of Nat.eqb Nat.ltb Nat.leb andb]; rewrite client_polls; reflexivity).
  assert (R1 : resolver_of 0 0 (acts ++ repeat (Poll 0) (work cs rs)) = rs) by (cbn [acts app resolver_of Nat.eqb Nat.ltb Nat.leb andb]; rewrite resolver_polls; reflexivity).
  assert (NA : ~ In AcceptFails (acts ++ repeat (Poll 0) (work cs rs))).
  { intros I. apply in_app_iff in I as [I|I]; [|exact (not_in_polls _ I)]. repeat (destruct I as [I|I]; [discriminate I|]). exact I. }
  assert (BY : forall d, In (RBytes d) rs -> is_bytes d) by (intros d [I|[I|[]]]; [discriminate I|injection I as <-; exact BR]).
  destruct (B acts (repeat (Poll 0) (work cs rs)) 0%nat (nth 0 (sv_tasks (run_server dbg acts)) new_task) [R] [] []) as (t & proof & ttl & num & age & v & HT & ET & ST & OT & D1 & D2 & _ & V & _);
    rewrite ?C0, ?R0, ?C1, ?R1, ?polls_polls; auto.
  - unfold cs. rewrite F4. exact AS.
  - unfold cs. rewrite F4. exact FL.
  - destruct (server_served dbg _ 0 t ltac:(rewrite R1; exact BY) HT) as [S _]. specialize (S ET). rewrite C1, R1 in S.
    assert (BU : built dbg rs n ty = (fst (build_proof dbg 10 n ty [R]), List.concat (snd (build_proof dbg 10 n ty [R])))) by reflexivity.
    destruct (build_proof dbg 10 n ty [R]) as [o sent'] eqn:BP. cbn [fst snd] in BU.
    assert (S' : Served dbg cs rs (match o with Ok (p, ttl) => render (Proof p ttl) | Err _ => render no_proof | _ => [] end) (List.concat sent')).
    { eapply Served_asked; [apply (serve_asked cs line n ty); [unfold cs; rewrite F4; exact AS|unfold cs; rewrite F4; exact FL|exact AF]|exact BU|reflexivity]. }
    destruct (served_unique _ _ _ _ _ _ _ S S') as [O T]. rewrite OT in O. rewrite ST in T.
    destruct o as [[p ttl']| | |].
    + exists qs, sent, p, ttl', sent'. split; [exact P|]. split; [exact Q|]. split; [cbn [List.concat]; rewrite app_nil_r; exact BR|]. split; [exact BP|].
      split; [symmetry; exact T|]. intros dbg'. destruct (V dbg') as (inp & fuel & E1 & E2). exists inp, fuel, v.
      rewrite render_proof in O. unfold http_message, proof_lines in O.
      assert (F1 : Framed (render (Proof p ttl')) p) by apply proof_framed.
      assert (F2 : proof = p).
      { apply (framed_unique (http_message (proof_lines num age) proof)).
        - exists [bs "HTTP/1.1 200 OK"], num, [bs "Content-Type: application/octet-stream"; bs "Cache-Control: public, max-age=" ++ age ++ bs ", s-maxage=" ++ age; bs "Access-Control-Allow-Origin: *"].
          assert (PA : printable age) by (apply digits_printable, D2).
          split; [reflexivity|]. split; [exact D1|]. split; [|split].
          + cbn [app]. repeat (constructor; [split; [discriminate|text]|]). constructor.
          + cbn [app]. repeat constructor; intros (w & C); discriminate.
          + exists (bs "200 OK"). reflexivity.
        - rewrite render_proof in F1. unfold http_message, proof_lines in *. rewrite O. exact F1. }
      subst p. auto.
    + exfalso. vm_compute in O. discriminate O.
    + exfalso. vm_compute in O. discriminate O.
    + exfalso. vm_compute in O. discriminate O.
Qed.

Lemma frames_inj (ms : list (list N)) : forall ms', Forall (fun m => length_of m <= 65535) ms -> Forall (fun m => length_of m <= 65535) ms' ->
  List.concat (map frame ms) = List.concat (map frame ms') -> ms = ms'.
Proof.
  induction ms as [|m ms IH]; intros [|m' ms'] F F' E; cbn [map List.concat] in E; auto.
  - exfalso. apply (f_equal (@List.length N)) in E. rewrite app_length in E. pose proof (frame_len m'). cbn in E. lia.
  - exfalso. apply (f_equal (@List.length N)) in E. rewrite app_length in E. pose proof (frame_len m). cbn in E. lia.
  - inversion F; inversion F'; subst. apply frame_unique in E as [-> E]; auto. f_equal. auto.
Qed.

Lemma query_short n ty b : name_try_from n = Some n -> ty < 65536 -> Query n ty b -> (List.length b <= 283)%nat.
Proof. intros V T Q. destruct (build_query_spec n ty V T) as (q & _ & Q' & L). rewrite (query_unique _ _ _ _ Q Q'). exact L. Qed.
Lemma queries_short qs sent : Forall (fun q => name_try_from (fst q) = Some (fst q) /\ snd q < 65536) qs ->
  Forall2 (fun q f => exists b, Query (fst q) (snd q) b /\ f = frame b) qs sent ->
  exists ms, sent = map frame ms /\ Forall (fun m => length_of m <= 65535) ms /\ (List.length (List.concat sent) <= 285 * List.length qs)%nat.
Proof.
  intros F Q. induction Q as [|q f qs sent (b & Q1 & ->) Q IH]; [exists []; repeat split; auto|].
  inversion F as [|? ? [V T] F1]. subst. destruct (IH F1) as (ms & -> & M & L). pose proof (query_short _ _ _ V T Q1) as S. exists (b :: ms).
  split; [reflexivity|]. split; [constructor; [unfold length_of; lia|exact M]|]. cbn [map List.concat List.length]. rewrite app_length. change (List.length (frame b)) with (2 + List.length b)%nat. lia.
Qed.
(** What the builder sends, if it is short, are frames. *)
Lemma sends_frames qs : length_of (List.concat (map (fun q => send_query (qb_deref q)) qs)) <= 65535 ->
  Forall (fun m => length_of m <= 65535) (map qb_deref qs) /\ map (fun q => send_query (qb_deref q)) qs = map frame (map qb_deref qs).
Proof.
  induction qs as [|q qs IH]; cbn [map List.concat]; intros L; [auto|]. unfold length_of in L. rewrite app_length in L. destruct IH as [F E]; [unfold length_of; lia|].
  assert (S : length_of (qb_deref q) <= 65535). { unfold send_query in L. rewrite app_length in L. unfold length_of. lia. }
  split; [constructor; assumption|]. rewrite E. f_equal. apply send_frame. exact S.
Qed.
Lemma built_sent dbg n ty segs o sent : name_try_from n = Some n -> ty < 65536 -> is_bytes (List.concat segs) -> build_proof dbg 10 n ty segs = (Ok o, sent) ->
  length_of (List.concat sent) <= 65535 -> exists ms, (List.length ms <= 10)%nat /\ Forall (fun m => length_of m <= 65535) ms /\ sent = map frame ms.
Proof.
  intros V T B H L. pose proof (sent_bound dbg n ty segs V T B) as SB. rewrite H in SB. cbn [snd] in SB. unfold build_proof in H. destruct (builder_new n ty) as [[b0 q0]| | |] eqn:N0; try discriminate H.
  destruct (drive_sound _ _ _ _ _ _ _ B H [] b0 (Driven_nil _ _)) as (tr & b' & rest & D & E & F & AO & Fi & S).
  change ([send_query (qb_deref q0)] ++ map (fun q => send_query (qb_deref q)) (handed tr)) with (map (fun q => send_query (qb_deref q)) (q0 :: handed tr)) in S.
  rewrite S in L. destruct (sends_frames _ L) as [FR EQ]. exists (map qb_deref (q0 :: handed tr)).
  split; [rewrite S in SB; rewrite map_length in *; exact SB|]. split; [exact FR|]. rewrite S. exact EQ.
Qed.

Definition sw_deep : list N := bs "GET /dnssecproof?d=x.e.d.c.b.a.&t=a HTTP/1.1".
Lemma deep_asks : AsksFor sw_deep (bs "x.e.d.c.b.a.") 1.
Proof. apply parse_asks. vm_compute. reflexivity. Qed.
Lemma first_line_b line : forallb (fun c => negb (c =? 13)) line = true -> FirstLine (line ++ [13; 10]) line.
Proof.
  intros H. split; [exists []; reflexivity|]. intros (a & b & ->). rewrite forallb_app in H. apply andb_true_iff in H as [_ H]. discriminate H.
Qed.
Definition responds (resp : list N -> N -> list N) (q : list N * N) : bool := bytes_ok (resp (fst q) (snd q)) && (len (resp (fst q) (snd q)) <=? 65535).
Lemma responds_all resp qs : forallb (responds resp) qs = true -> forall q, In q qs -> is_bytes (resp (fst q) (snd q)) /\ length_of (resp (fst q) (snd q)) <= 65535.
Proof. intros H q I. rewrite forallb_forall in H. specialize (H q I). apply andb_true_iff in H as [A B]. split; [apply is_bytes_ok, A|apply N.leb_le, B]. Qed.
Lemma names_all qs : forallb (fun q => match name_try_from (fst q) with Some n => bytes_eqb n (fst q) | None => false end && (snd q <? 65536)) qs = true ->
  Forall (fun q => name_try_from (fst q) = Some (fst q) /\ snd q < 65536) qs.
Proof.
  intros H. apply Forall_forall. intros q I. rewrite forallb_forall in H. specialize (H q I). apply andb_true_iff in H as [A B].
  split; [|apply N.ltb_lt, B]. destruct (name_try_from (fst q)); [|discriminate A]. apply bytes_eqb_eq in A as ->. reflexivity.
Qed.
Lemma ascii_b s : forallb (fun c => c <? 128) s = true -> ascii s.
Proof. intros H. apply Forall_forall. intros c I. rewrite forallb_forall in H. apply N.ltb_lt, H, I. Qed.

Lemma server_zones_refuted : ~ (forall e dbg zones answers n ty data resp line, AsksFor line n ty -> SortsNeeds e ->
  WellSigned e zones answers (FirstVouched e) -> Serves zones answers n ty data -> Answers data dbg n ty resp ->
  (forall m t rt, Asked data n ty m t -> In rt (data m t) -> wf_rr (fst rt)) -> Delivers e dbg zones answers n ty data resp line).
Proof.
  intros H. specialize (H echo_env false l_deep l_deep_answer (bs "x.e.d.c.b.a.") 1 _ _ sw_deep deep_asks echo_sorts deep_signed deep_serves (proj1 deep_answers) (proj2 deep_answers)).
  apply delivers_built in H; [|exact deep_asks|vm_compute; reflexivity|apply ascii_b; vm_compute; reflexivity|apply first_line_b; vm_compute; reflexivity|apply responds_all; vm_compute; reflexivity].
  destruct H as (qs & sent & proof & ttl & sent' & P & Q & B & E & C & _).
  assert (NM : Forall (fun q => name_try_from (fst q) = Some (fst q) /\ snd q < 65536) qs).
  { apply (Permutation_Forall (Permutation_sym P)). apply names_all. vm_compute. reflexivity. }
  destruct (queries_short _ _ NM Q) as (ms & E1 & M1 & L). apply f2_length in Q. rewrite (Permutation_length P) in L, Q. cbn [List.length] in L.
  assert (N12 : List.length (questions (bs "x.e.d.c.b.a.") 1 (map zn_name l_deep)) = 12%nat) by reflexivity. rewrite N12 in *.
  destruct (built_sent false (bs "x.e.d.c.b.a.") 1 _ _ _ ltac:(vm_compute; reflexivity) ltac:(vm_compute; reflexivity) B E) as (ms' & L' & M2 & E2); [rewrite C; unfold length_of; lia|].
  rewrite E1, E2 in C. apply frames_inj in C; auto. subst ms'. rewrite E1, map_length in Q. lia.
Qed.

Definition sw_rolled : list N := bs "GET /dnssecproof?d=x.a.&t=a HTTP/1.1".
Lemma rolled_asks : AsksFor sw_rolled (bs "x.a.") 1.
Proof. apply parse_asks. vm_compute. reflexivity. Qed.
Lemma built_fails resp n ty zones qs proof ttl sent : Permutation qs (questions n ty (map zn_name zones)) ->
  build_proof false 10 n ty [flat_map frame (map (fun q => resp (fst q) (snd q)) qs)] = (Ok (proof, ttl), sent) ->
  (exists inp fuel v, parse_rr_stream false proof = Ok inp /\ verify_rr_stream echo_env false fuel inp = Ok v) ->
  forallb (fails resp n ty) (perms (questions n ty (map zn_name zones))) = true -> False.
Proof.
  intros P E (inp & fuel & v & E1 & E2) F. rewrite forallb_forall in F. specialize (F qs (in_perms _ _ P)). unfold fails in F. rewrite E, E1 in F.
  destruct (verify_rr_stream echo_env false 10 inp) as [|x| |] eqn:E3; try discriminate F.
  pose proof (verify_fuel _ _ _ _ _ _ E2 ltac:(discriminate) E3 ltac:(discriminate)) as X. discriminate X.
Qed.
Lemma rolled_fails : forallb (fails (l_resp l_rolled l_plain (bs "x.a.") 1) (bs "x.a.") 1) (perms (questions (bs "x.a.") 1 (map zn_name l_rolled))) = true.
Proof. vm_compute. reflexivity. Qed.
Lemma rolled_responds q : In q (questions (bs "x.a.") 1 (map zn_name l_rolled)) ->
  is_bytes (l_resp l_rolled l_plain (bs "x.a.") 1 (fst q) (snd q)) /\ length_of (l_resp l_rolled l_plain (bs "x.a.") 1 (fst q) (snd q)) <= 65535.
Proof. apply (responds_all (l_resp l_rolled l_plain (bs "x.a.") 1)). vm_compute. reflexivity. Qed.
Lemma server_key_order_refuted : ~ (forall e dbg zones answers n ty data resp line, AsksFor line n ty -> SortsNeeds e ->
  WellSigned e zones answers (SomeVouched e) -> Serves zones answers n ty data -> Answers data dbg n ty resp ->
  (forall m t rt, Asked data n ty m t -> In rt (data m t) -> wf_rr (fst rt)) -> (List.length zones <= 5)%nat -> Delivers e dbg zones answers n ty data resp line).
Proof.
  intros H. specialize (H echo_env false l_rolled l_plain (bs "x.a.") 1 (l_data l_rolled l_plain (bs "x.a.") 1) (l_resp l_rolled l_plain (bs "x.a.") 1) sw_rolled rolled_asks echo_sorts rolled_signed rolled_serves (proj1 rolled_answers) (proj2 rolled_answers) ltac:(apply Nat.leb_le; reflexivity)).
  apply delivers_built in H; [|exact rolled_asks|vm_compute; reflexivity|apply ascii_b; vm_compute; reflexivity|apply first_line_b; vm_compute; reflexivity|exact rolled_responds].
  destruct H as (qs & sent & proof & ttl & sent' & P & Q & B & E & C & V).
  exact (built_fails _ _ _ _ _ _ _ _ P E (V false) rolled_fails).
Qed.
