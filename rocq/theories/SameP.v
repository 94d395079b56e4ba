(** Two connections which ask for the same name. *)
From Verif Require Import Base BaseP NameM NameSpec NameP WireM RRM SerM RecSpec RecP2 ValM QueryM QuerySpec QueryP4 AcceptSpec TextSpec TextP HttpM HttpSpec HttpP LiveSpec ServerM ServerSpec ServerP ServerP2 ArriveSpec ArriveP ArriveP2 SameSpec.
From Coq Require Import String Lia List PeanoNat Permutation.
Import ListNotations.
Local Open Scope N_scope.

Lemma answered_built dbg answer n ty b0 q0 order b p ttl : (forall q, is_bytes (answer q)) -> name_try_from n = Some n -> ty < 65536 -> builder_new n ty = Ok (b0, q0) ->
  Arrive dbg answer b0 [qb_deref q0] order b [] -> finish_proof b = Ok (p, ttl) -> Forall (fun q => length_of (answer q) <= 65535) order ->
  exists sent, Permutation sent (map frame order) /\
    forall segs rest over, List.concat segs = flat_map frame (map answer order) ++ rest ->
      build_proof dbg 10 n ty (segs ++ segments over) = (Ok (p, ttl), sent).
Proof.
  intros HB V T E A F L. destruct (over_tcp dbg answer n ty b0 q0 order b p ttl HB V T E A F L) as (sent & P & B). exists sent. split; [exact P |].
  intros segs rest over C. apply (B _ (rest ++ List.concat (segments over))). rewrite concat_app, C, <- app_assoc. reflexivity.
Qed.

Lemma one_served dbg answer n ty b0 q0 order b p ttl line acts i t : (forall q, is_bytes (answer q)) -> builder_new n ty = Ok (b0, q0) ->
  Arrive dbg answer b0 [qb_deref q0] order b [] -> finish_proof b = Ok (p, ttl) -> Forall (fun q => length_of (answer q) <= 65535) order ->
  AsksFor line n ty -> Answered answer line order acts i -> nth_error (sv_tasks (run_server dbg acts)) i = Some t -> tk_ctl t = Ended ->
  exists num age sent, Decimal (length_of p) num /\ Decimal ttl age /\ tk_out t = http_message (proof_lines num age) p /\ tk_sent t = List.concat sent /\ Permutation sent (map frame order).
Proof.
  intros HB E A F L AF (AS & FL & BY & segs & rest & over & RE & CE) HT ET. destruct (asks_valid _ _ _ AF) as (V & T & NT).
  destruct (answered_built dbg answer n ty b0 q0 order b p ttl HB V T E A F L) as (sent & P & B). specialize (B segs rest over CE).
  destruct (server_served dbg acts i t BY HT) as [S _]. specialize (S ET).
  assert (BU : built dbg (resolver_of i 0 acts) n ty = (Ok (p, ttl), List.concat sent)) by (rewrite RE; unfold built; rewrite segments_app, B; reflexivity).
  destruct (asked_served dbg _ _ line n ty _ _ (p, ttl) AS FL AF S) as [O SS]; [rewrite BU; reflexivity |].
  cbn [fst snd] in O. rewrite BU in SS. cbn [snd] in SS.
  destruct (proof_rendered p ttl) as (num & age & D1 & D2 & RD). exists num, age, sent. rewrite O. auto 6.
Qed.

Lemma one_ends dbg answer n ty b0 q0 order b p ttl line acts later i t0 : (forall q, is_bytes (answer q)) -> builder_new n ty = Ok (b0, q0) ->
  Arrive dbg answer b0 [qb_deref q0] order b [] -> finish_proof b = Ok (p, ttl) -> Forall (fun q => length_of (answer q) <= 65535) order ->
  AsksFor line n ty -> Answered answer line order acts i -> ~ In AcceptFails (acts ++ later) -> nth_error (sv_tasks (run_server dbg acts)) i = Some t0 ->
  client_of i 0 (acts ++ later) = client_of i 0 acts -> resolver_of i 0 (acts ++ later) = resolver_of i 0 acts ->
  (work (client_of i 0 acts) (resolver_of i 0 acts) <= polls i later)%nat ->
  exists t num age, nth_error (sv_tasks (run_server dbg (acts ++ later))) i = Some t /\ tk_ctl t = Ended /\
    Decimal (length_of p) num /\ Decimal ttl age /\ tk_out t = http_message (proof_lines num age) p.
Proof.
  intros HB E A F L AF AN N H C R W. pose proof AN as (AS & FL & BY & segs & rest & over & RE & CE). destruct (asks_valid _ _ _ AF) as (V & T & NT).
  destruct (answered_built dbg answer n ty b0 q0 order b p ttl HB V T E A F L) as (sent & P & B). specialize (B segs rest over CE).
  destruct (server_progress dbg acts later i _ _ t0 N H eq_refl C eq_refl R BY W) as (t & HT & K).
  assert (ET : tk_ctl t = Ended).
  { destruct K as [K | K]; [exact K |]. exfalso. destruct K as [NS NF _ | n' ty' l F' K' Z | n' ty' l segs' sent' tr b' rest' F' K' Z _ _ _ _ _ BP].
    - exact (NF _ FL).
    - rewrite RE in Z. discriminate.
    - rewrite (first_line_unique _ _ _ F' FL) in K'. destruct (asks_unique _ _ _ _ _ K' AF) as [-> ->]. rewrite RE in Z. injection Z as Z.
      assert (S' : segs' = segs ++ segments over).
      { rewrite <- segments_app, Z. rewrite <- (app_nil_r (map RBytes segs')), segments_app. cbn. rewrite app_nil_r. reflexivity. }
      rewrite <- S', BP in B. discriminate. }
  assert (AN' : Answered answer line order (acts ++ later) i).
  { unfold Answered. rewrite C, R. exact AN. }
  destruct (one_served dbg answer n ty b0 q0 order b p ttl line _ i t HB E A F L AF AN' HT ET) as (num & age & s & D1 & D2 & O & _). exists t, num, age. auto 6.
Qed.

Lemma both_served dbg answer n ty b0 q0 order b p ttl order' b' line line' acts i t acts' j t' : (forall q, is_bytes (answer q)) -> builder_new n ty = Ok (b0, q0) ->
  Arrive dbg answer b0 [qb_deref q0] order b [] -> finish_proof b = Ok (p, ttl) -> Arrive dbg answer b0 [qb_deref q0] order' b' [] -> Forall (fun q => length_of (answer q) <= 65535) order ->
  AsksFor line n ty -> Answered answer line order acts i -> nth_error (sv_tasks (run_server dbg acts)) i = Some t -> tk_ctl t = Ended ->
  AsksFor line' n ty -> Answered answer line' order' acts' j -> nth_error (sv_tasks (run_server dbg acts')) j = Some t' -> tk_ctl t' = Ended ->
  exists num age items items' sent sent', Permutation items items' /\ Permutation sent (map frame order) /\ Permutation sent' (map frame order) /\ Decimal (length_of (write_all items)) num /\ Decimal ttl age /\
    Brings dbg answer order items /\ Brings dbg answer order' items' /\
    tk_out t = http_message (proof_lines num age) (write_all items) /\ tk_out t' = http_message (proof_lines num age) (write_all items') /\
    tk_sent t = List.concat sent /\ tk_sent t' = List.concat sent'.
Proof.
  intros HB E A F A' L AF AN HT ET AF' AN' HT' ET'. destruct (any_order dbg answer n ty b0 q0 order b order' b' p ttl HB E A F A') as (PO & p' & items & items' & F' & B1 & B2 & PI & -> & ->).
  assert (L' : Forall (fun q => length_of (answer q) <= 65535) order').
  { rewrite Forall_forall in *. intros q Hq. apply L. eapply Permutation_in; [apply Permutation_sym, PO | exact Hq]. }
  destruct (one_served dbg answer n ty b0 q0 order b _ ttl line acts i t HB E A F L AF AN HT ET) as (num & age & sent & D1 & D2 & O & S & PS).
  destruct (one_served dbg answer n ty b0 q0 order' b' _ ttl line' acts' j t' HB E A' F' L' AF' AN' HT' ET') as (num' & age' & sent' & D1' & D2' & O' & S' & PS').
  assert (LE : length_of (write_all items') = length_of (write_all items)).
  { unfold length_of. f_equal. apply Permutation_length, Permutation_sym. unfold write_all. apply Permutation_flat_map, PI. }
  rewrite LE in D1'. rewrite (decimal_unique _ _ _ D1' D1), (decimal_unique _ _ _ D2' D2) in O'.
  exists num, age, items, items', sent, sent'. repeat match goal with |- _ /\ _ => split end; auto.
  etransitivity; [exact PS' |]. apply Permutation_map. symmetry. exact PO.
Qed.
