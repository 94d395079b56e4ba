(** Witnesses for Prop_Arrive. *)
From Verif Require Import Base BaseP NameM NameSpec NameP WireM WireSpec RRM SerM RecSpec RecP RecP2 SignedP ValSpec ValM ValP4 HeldP ValW OrderW QueryM QuerySpec QBufP QueryP QueryP2 QueryP3 QueryP4 QueryW OrderSpec AcceptSpec AcceptW MergeW LiveSpec LiveP LiveW LiveW2 ArriveSpec ArriveP ArriveP2.
From Coq Require Import String Permutation PeanoNat Lia.
Import List.ListNotations.
Local Open Scope N_scope.

(** ** Resolvers given by a table *)
Definition table (t : list (list N * list N)) (q : list N) : list N := match find (fun p => bytes_eqb (fst p) q) t with Some p => snd p | None => [] end.
Lemma table_bytes t : forallb (fun p => bytes_ok (snd p)) t = true -> forall q, is_bytes (table t q).
Proof.
  intros H q. unfold table. destruct (find _ t) as [p |] eqn:E; [| constructor]. apply find_some in E as [I _]. rewrite forallb_forall in H. apply is_bytes_ok. exact (H p I).
Qed.
Fixpoint take_out (q : list N) (w : list (list N)) : option (list (list N) * list (list N)) :=
  match w with
  | [] => None
  | x :: t => if bytes_eqb x q then Some ([], t) else match take_out q t with Some (a, b) => Some (x :: a, b) | None => None end
  end.
Lemma take_out_ok q w a b : take_out q w = Some (a, b) -> w = a ++ q :: b.
Proof.
  revert a b. induction w as [| x w IH]; intros a b H; [discriminate H |]. cbn [take_out] in H. destruct (bytes_eqb x q) eqn:E.
  - injection H as <- <-. apply bytes_eqb_eq in E as ->. reflexivity.
  - destruct (take_out q w) as [[a' b'] |]; [| discriminate H]. injection H as <- <-. rewrite (IH _ _ eq_refl). reflexivity.
Qed.
Fixpoint arrive_run (answer : list N -> list N) (b : builder) (w order : list (list N)) : option (builder * list (list N)) :=
  match order with
  | [] => Some (b, w)
  | q :: t => match take_out q w with
    | Some (w1, w2) => match process_response false b (answer q) with (Ok qs, b1) => arrive_run answer b1 (w1 ++ w2 ++ map qb_deref qs) t | _ => None end
    | None => None
    end
  end.
Lemma arrive_run_ok answer order : forall b w b' w', arrive_run answer b w order = Some (b', w') -> Arrive false answer b w order b' w'.
Proof.
  induction order as [| q t IH]; intros b w b' w' H; cbn [arrive_run] in H; [injection H as <- <-; constructor |].
  destruct (take_out q w) as [[w1 w2] |] eqn:E; [| discriminate H]. apply take_out_ok in E as ->. destruct (process_response false b (answer q)) as [[qs | | |] b1] eqn:P; try discriminate H.
  econstructor; [exact P |]. apply IH. exact H.
Qed.
(** The proof, if the answers come in the order [order]. *)
Definition in_order (answer : list N -> list N) (n : list N) (ty : N) (order : list (list N)) : option (list N * N) :=
  match builder_new n ty with
  | Ok (b0, q0) => match arrive_run answer b0 [qb_deref q0] order with Some (b, []) => match finish_proof b with Ok r => Some r | _ => None end | _ => None end
  | _ => None
  end.
(** A complete run. *)
Definition Complete (answer : list N -> list N) (n : list N) (ty : N) (order : list (list N)) (b0 : builder) (q0 : qbuf) (b : builder) (p : list N) (ttl : N) : Prop :=
  builder_new n ty = Ok (b0, q0) /\ Arrive false answer b0 [qb_deref q0] order b [] /\ finish_proof b = Ok (p, ttl).
Lemma in_order_ok answer n ty order p ttl : in_order answer n ty order = Some (p, ttl) -> exists b0 q0 b, Complete answer n ty order b0 q0 b p ttl.
Proof.
  unfold in_order. destruct (builder_new n ty) as [[b0 q0] | | |] eqn:E; try discriminate. destruct (arrive_run _ _ _ _) as [[b [| x w]] |] eqn:A; try discriminate.
  destruct (finish_proof b) as [[p' ttl'] | | |] eqn:F; try discriminate. intros H. injection H as <- <-. exists b0, q0, b. split; [exact E |]. split; [apply arrive_run_ok; exact A | exact F].
Qed.
Lemma two_orders answer n ty o1 o2 p1 p2 t1 t2 : in_order answer n ty o1 = Some (p1, t1) -> in_order answer n ty o2 = Some (p2, t2) ->
  exists b0 q0 b1 b2, Complete answer n ty o1 b0 q0 b1 p1 t1 /\ Complete answer n ty o2 b0 q0 b2 p2 t2.
Proof.
  intros H1 H2. apply in_order_ok in H1 as (b0 & q0 & b1 & C1). apply in_order_ok in H2 as (b0' & q0' & b2 & C2). pose proof C1 as (E1 & _). pose proof C2 as (E2 & _). rewrite E1 in E2. injection E2 as <- <-.
  exists b0, q0, b1, b2. auto.
Qed.

(** ** The wildcard answer of OrderW, and the two delegations *)
Definition y_query (z : string) (ty : N) : list N := qbytes (bs z, ty).
Definition y_table : list (list N * list N) := Eval vm_compute in
  map (fun q => (qbytes q, l_resp l_small l_wild (bs "x.a.") 1 (fst q) (snd q))) (qlist l_small (bs "x.a.") 1).
Definition y_answer : list N -> list N := table y_table.
Definition y_order : list (list N) := [y_query "x.a." 1; y_query "a." 48; y_query "a." 43; y_query "." 48].
Definition y_other : list (list N) := [y_query "x.a." 1; y_query "a." 43; y_query "." 48; y_query "a." 48].
Definition y_proof (o : list (list N)) : list N := match in_order y_answer (bs "x.a.") 1 o with Some (p, _) => p | None => [] end.
Lemma y_bytes q : is_bytes (y_answer q).
Proof. apply table_bytes. vm_compute. reflexivity. Qed.
Lemma y_runs : in_order y_answer (bs "x.a.") 1 y_order = Some (y_proof y_order, 60) /\ in_order y_answer (bs "x.a.") 1 y_other = Some (y_proof y_other, 60).
Proof. split; vm_compute; reflexivity. Qed.
Lemma y_differ : bytes_eqb (y_proof y_order) (y_proof y_other) = false.
Proof. vm_compute. reflexivity. Qed.

(** What the hypotheses of the verdict theorem say of this resolver. *)
Definition together_b (answer : list N -> list N) (order : list (list N)) : bool :=
  forallb (fun q => match items_of false (answer q) with
    | Some i => forallb (fun r => match r with RR_DnsKey k => bytes_eqb (qbytes (dk_name k, 48)) q | RR_RRSig s => if rs_ty s =? 48 then bytes_eqb (qbytes (rs_name s, 48)) q else true | _ => true end) (map fst i)
    | None => false
    end) order.
Lemma nothing {A B} (f : A -> list B) l : (forall x, In x l -> f x = []) -> flat_map f l = [].
Proof. intros H. induction l as [| x l IH]; [reflexivity |]. cbn [flat_map]. rewrite (H x (or_introl eq_refl)), IH; [reflexivity |]. intros y Hy. apply H. right. exact Hy. Qed.
Lemma together_ok answer order : (forall q, is_bytes (answer q)) -> together_b answer order = true -> KeysTogether false answer order.
Proof.
  intros HB H z. exists (qbytes (z, 48)). intros q items Iq NE R. unfold together_b in H. rewrite forallb_forall in H. specialize (H q Iq). cbn beta in H.
  destruct (items_of false (answer q)) as [i |] eqn:E; [| discriminate H]. pose proof (items_response false _ _ (HB q) E) as R'. rewrite (response_unique _ _ _ _ R R'). rewrite forallb_forall in H.
  split; apply nothing; intros r Hr; specialize (H r Hr); destruct r; try reflexivity.
  - destruct (list_eq_dec N.eq_dec _ z) as [<- |]; [| reflexivity]. apply bytes_eqb_eq in H. congruence.
  - destruct (list_eq_dec N.eq_dec _ z) as [<- |]; [| reflexivity]. destruct (_ =? 48); [| reflexivity]. apply bytes_eqb_eq in H. congruence.
Qed.
Lemma brings_one answer order its items : (forall q, is_bytes (answer q)) -> itemss_of false (map answer order) = Some its -> Brings false answer order items -> items = List.concat its.
Proof.
  intros HB E (l & F & ->). apply itemss_responses in E; [| apply Forall_map, Forall_forall; auto]. f_equal. revert its E. induction F as [| q i o l R F IH]; intros its E; cbn [map] in E; inversion E; subst; [reflexivity |].
  f_equal; [eapply response_unique; eassumption |]. apply IH. assumption.
Qed.
Definition y_items : list (RR * N) := Eval vm_compute in match itemss_of false (map y_answer y_order) with Some l => List.concat l | None => [] end.
Lemma y_brings items : Brings false y_answer y_order items -> items = y_items.
Proof.
  intros B. destruct (itemss_of false (map y_answer y_order)) as [l |] eqn:E; [| vm_compute in E; discriminate E].
  rewrite (brings_one _ _ _ _ y_bytes E B). assert (X : match itemss_of false (map y_answer y_order) with Some l => List.concat l | None => [] end = y_items) by (vm_compute; reflexivity). rewrite E in X. exact X.
Qed.
Lemma y_world : incl (map fst y_items) (world_records l_small l_wild).
Proof.
  assert (X : forallb (fun r => existsb (rr_eqb r) (world_records l_small l_wild)) (map fst y_items) = true) by (vm_compute; reflexivity).
  rewrite forallb_forall in X. intros r Hr. apply X, existsb_exists in Hr as (r' & I & E). apply rr_eqb_eq in E as ->. exact I.
Qed.
Lemma y_wf : Forall wf_rr (map fst y_items).
Proof. pose proof small_wf as W. rewrite Forall_forall in W. apply Forall_forall. intros r Hr. apply W, y_world, Hr. Qed.
Lemma y_hyps items : Brings false y_answer y_order items -> Forall wf_rr (map fst items) /\
  (forall s, In (RR_RRSig s) (map fst items) -> ~ EmptyMaxLabels (map fst items) s) /\ TwoParams echo_env (map fst items) /\ OneZone echo_env (map fst items).
Proof.
  intros B. rewrite (y_brings _ B). split; [exact y_wf |]. split; [apply not_max; vm_compute; reflexivity |]. split; [apply no_nsec3; vm_compute; reflexivity |].
  apply (one_signer_ok _ (bs "a.")); [| vm_compute; reflexivity]. eapply Forall_impl; [exact wf_held | exact y_wf].
Qed.
Lemma y_together : KeysTogether false y_answer y_order.
Proof. apply together_ok; [exact y_bytes |]. vm_compute. reflexivity. Qed.
(** The verdict on the octets of a proof. *)
Definition y_verdict (e : env) (p : list N) : outcome verr verified := match parse_rr_stream false p with Ok rs => verify_rr_stream e false 10 rs | _ => Err Invalid end.
Definition only_xa (o : outcome verr verified) : bool := match o with Ok v => match vr_rrs v with [r] => rr_eqb r (w_a "x.a.") | _ => false end | _ => false end.
Lemma y_verified : only_xa (y_verdict echo_env (y_proof y_order)) = true /\ only_xa (y_verdict echo_env (y_proof y_other)) = true.
Proof. split; vm_compute; reflexivity. Qed.

(** ** The signatures over the DNSKEYs of the root in two answers *)
Definition z_resp (rs : list RR) : list N := q_msg q_ok (len rs) 0 (flat_map (fun r => write_rr r 60) rs).
Definition z_table : list (list N * list N) := Eval vm_compute in
  [(y_query "x.a." 1, z_resp [w_a "x.a."; w_sig "x.a." 1 2 "a."]); (y_query "a." 43, z_resp [w_ds "a."; w_sig "a." 43 1 "."]);
   (y_query "a." 48, z_resp [w_key "a."; w_sig "a." 48 1 "a."; w_badsig]); (y_query "." 48, z_resp [w_key "."; w_sig "." 48 0 "."])].
Definition z_answer : list N -> list N := table z_table.
Definition z_proof (o : list (list N)) : list N := match in_order z_answer (bs "x.a.") 1 o with Some (p, _) => p | None => [] end.
Lemma z_bytes q : is_bytes (z_answer q).
Proof. apply table_bytes. vm_compute. reflexivity. Qed.
Lemma z_runs : in_order z_answer (bs "x.a.") 1 y_order = Some (z_proof y_order, 60) /\ in_order z_answer (bs "x.a.") 1 y_other = Some (z_proof y_other, 60).
Proof. split; vm_compute; reflexivity. Qed.
Lemma z_verdicts : only_xa (y_verdict toy_env (z_proof y_other)) = true /\ y_verdict toy_env (z_proof y_order) = Err Invalid.
Proof. split; vm_compute; reflexivity. Qed.

Definition z_records : list RR := [w_a "x.a."; w_sig "x.a." 1 2 "a."; w_ds "a."; w_sig "a." 43 1 "."; w_key "."; w_sig "." 48 0 "."; w_key "a."; w_sig "a." 48 1 "a."; w_badsig].
Lemma z_wf : Forall wf_rr z_records.
Proof. unfold z_records, w_badsig, w_sig. repeat (apply Forall_cons; [l_wf |]); apply Forall_nil. Qed.
Lemma z_brings items : Brings false z_answer y_other items -> map fst items = z_records.
Proof.
  intros B. destruct (itemss_of false (map z_answer y_other)) as [l |] eqn:E; [| vm_compute in E; discriminate E].
  rewrite (brings_one _ _ _ _ z_bytes E B). assert (X : match itemss_of false (map z_answer y_other) with Some l => map fst (List.concat l) | None => [] end = z_records) by (vm_compute; reflexivity). rewrite E in X. exact X.
Qed.
Lemma z_hyps items : Brings false z_answer y_other items -> Forall wf_rr (map fst items) /\
  (forall s, In (RR_RRSig s) (map fst items) -> ~ EmptyMaxLabels (map fst items) s) /\ TwoParams toy_env (map fst items) /\ OneZone toy_env (map fst items).
Proof.
  intros B. rewrite (z_brings _ B). split; [exact z_wf |]. split; [apply not_max; vm_compute; reflexivity |]. split; [apply no_nsec3; vm_compute; reflexivity |].
  apply (one_signer_ok _ (bs "a.")); [| vm_compute; reflexivity]. eapply Forall_impl; [exact wf_held | exact z_wf].
Qed.

(** ** What does not hold *)
Lemma bytes_refuted : ~ (forall dbg answer n ty b0 q0 order b order' b' p ttl p' ttl', (forall q, is_bytes (answer q)) -> builder_new n ty = Ok (b0, q0) ->
  Arrive dbg answer b0 [qb_deref q0] order b [] -> finish_proof b = Ok (p, ttl) -> Arrive dbg answer b0 [qb_deref q0] order' b' [] -> finish_proof b' = Ok (p', ttl') -> p' = p).
Proof.
  intros H. destruct y_runs as [R1 R2]. destruct (two_orders _ _ _ _ _ _ _ _ _ R1 R2) as (b0 & q0 & b1 & b2 & (E & A1 & F1) & _ & A2 & F2).
  pose proof (H false _ _ _ _ _ _ _ _ _ _ _ _ _ y_bytes E A1 F1 A2 F2) as X. pose proof y_differ as D. rewrite X, bytes_eqb_refl in D. discriminate D.
Qed.
Lemma verdict_refuted : ~ (forall dbg answer n ty b0 q0 order b order' b' p ttl p' ttl' e dbg1 rs rs' fuel v, (forall q, is_bytes (answer q)) -> builder_new n ty = Ok (b0, q0) ->
  Arrive dbg answer b0 [qb_deref q0] order b [] -> finish_proof b = Ok (p, ttl) -> Arrive dbg answer b0 [qb_deref q0] order' b' [] -> finish_proof b' = Ok (p', ttl') ->
  (forall items, Brings dbg answer order items -> Forall wf_rr (map fst items) /\
    (forall s, In (RR_RRSig s) (map fst items) -> ~ EmptyMaxLabels (map fst items) s) /\ TwoParams e (map fst items) /\ OneZone e (map fst items)) -> SortsNeeds e ->
  parse_rr_stream dbg1 p = Ok rs -> parse_rr_stream dbg1 p' = Ok rs' -> verify_rr_stream e false fuel rs = Ok v -> exists fuel' v', verify_rr_stream e false fuel' rs' = Ok v').
Proof.
  intros H. destruct z_runs as [R1 R2]. destruct (two_orders _ _ _ _ _ _ _ _ _ R2 R1) as (b0 & q0 & b1 & b2 & (E & A1 & F1) & _ & A2 & F2).
  destruct z_verdicts as [V1 V2]. unfold y_verdict in V1, V2.
  destruct (parse_rr_stream false (z_proof y_other)) as [rs | | |] eqn:P1; [| discriminate V1 ..]. destruct (parse_rr_stream false (z_proof y_order)) as [rs' | | |] eqn:P2; [| vm_compute in P2; discriminate P2 ..].
  unfold only_xa in V1. destruct (verify_rr_stream toy_env false 10 rs) as [v | | |] eqn:V; [| discriminate V1 ..].
  destruct (H false _ _ _ _ _ _ _ _ _ _ _ _ _ toy_env false rs rs' 10%nat v z_bytes E A1 F1 A2 F2 z_hyps toy_sorts P1 P2 V) as (fuel' & v' & V').
  assert (L : verify_rr_stream toy_env false 10 rs' <> Loop) by (rewrite V2; discriminate). assert (L' : verify_rr_stream toy_env false fuel' rs' <> Loop) by (rewrite V'; discriminate).
  destruct (Nat.le_ge_cases 10 fuel') as [G | G].
  - rewrite (verify_mono _ _ _ _ _ L G), V2 in V'. discriminate V'.
  - rewrite (verify_mono _ _ _ _ _ L' G), V' in V2. discriminate V2.
Qed.
