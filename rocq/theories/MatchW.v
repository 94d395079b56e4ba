(** Witnesses: responses which answer another question. *)
From Verif Require Import Base BaseP NameM NameSpec NameP WireM WireSpec RRM SerM RecSpec RecP RecP2 ValSpec ValM ValW QueryM QuerySpec QBufP QueryP QueryP2 QueryP3 QueryP4 QueryW MatchSpec.
From Coq Require Import Lia String.
Import List.ListNotations.
Local Open Scope N_scope.

(** The answer to the first question, with a signature by a., three times. *)
Definition thrice : list (list N) := [signers [97]; signers [97]; signers [97]].
Definition t_run (dbg : bool) := exec dbg builder_init thrice.
Definition t_proof : list N := match finish_proof (snd (t_run false)) with Ok (p, _) => p | _ => [] end.
Lemma t_calls dbg : Calls dbg builder_init (fst (t_run dbg)) (snd (t_run dbg)).
Proof. apply exec_calls. destruct dbg; vm_compute; reflexivity. Qed.
Lemma t_bytes dbg : Forall (fun c => is_bytes (fst c)) (fst (t_run dbg)).
Proof. apply exec_bytes. bytes_list. Qed.
Lemma t_oks dbg : Forall (fun c => is_ok (snd c) = true) (fst (t_run dbg)).
Proof. apply forallb_ok. destruct dbg; vm_compute; reflexivity. Qed.
Lemma t_question m : In m thrice -> ~ Question m [97; 46] 48.
Proof.
  intros I (head & nb & cl & rest & L & E & (text & NE & _)). assert (M : m = signers [97]) by (destruct I as [<- | [<- | [<- | []]]]; reflexivity). clear I.
  assert (N12 : nth 12 m 1 = 0) by (rewrite M; reflexivity). assert (N14 : nth 14 m 1 = 1) by (rewrite M; reflexivity).
  rewrite E in N12, N14. rewrite app_nth2 in N12 by lia. rewrite app_nth2 in N14 by lia. rewrite L in N12, N14. cbn [Nat.sub] in N12, N14.
  inversion NE; subst; cbn in N12, N14; lia.
Qed.
(** The same records under another question, y. AAAA, and with some further octets at the end. *)
Definition other_question : list N := u16 0 ++ u16 q_ok ++ u16 1 ++ u16 2 ++ u16 0 ++ u16 0 ++ [1; 121; 0; 0; 28; 0; 1] ++ q_a 60 ++ q_sig 60 [1; 97; 0] ++ [7; 7].
Lemma t_accepted : accepted (fst (t_run true)) = thrice.
Proof. vm_compute. reflexivity. Qed.
Definition a_query : qbuf := match build_query [97; 46] 48 with Ok q => q | _ => new_zeroed 0 end.
Lemma a_built : build_query [97; 46] 48 = Ok a_query.
Proof. vm_compute. reflexivity. Qed.
Lemma t_handed : hd_error (handed (fst (t_run true))) = Some a_query.
Proof. vm_compute. reflexivity. Qed.
Lemma t_finish : match finish_proof (snd (t_run true)) with Ok _ => true | _ => false end = true.
Proof. vm_compute. reflexivity. Qed.
Lemma hd_in {A} (l : list A) x : hd_error l = Some x -> In x l.
Proof. destruct l as [| y l]; [discriminate |]. cbn. intros E. injection E as ->. left. reflexivity. Qed.
Lemma answered_refuted : ~ (forall dbg n ty b0 q0 tr b p, builder_new n ty = Ok (b0, q0) -> Calls dbg b0 tr b -> Forall (fun c => is_bytes (fst c)) tr ->
  Forall (fun c => is_ok (snd c) = true) tr -> finish_proof b = Ok p -> EachAnswered n ty tr).
Proof.
  intros H. pose proof t_finish as F. destruct (finish_proof (snd (t_run true))) as [p | | |] eqn:FE; try discriminate F.
  destruct (H true [46] 1 _ _ _ _ p root_builder (t_calls true) (t_bytes true) (t_oks true) FE) as [_ A]. rewrite t_accepted in A. pose proof t_handed as TH.
  destruct (query_ok [97; 46] 48) as (q & BQ & Q); [vm_compute; reflexivity | reflexivity |]. rewrite a_built in BQ. assert (QE : a_query = q) by (apply (f_equal (fun o : outcome unit qbuf => match o with Ok x => x | _ => a_query end)) in BQ; exact BQ). rewrite <- QE in Q. clear BQ QE.
  destruct (A a_query [97; 46] 48) as (m & Hm & QM); [exact (hd_in _ _ TH) | exact (proj2 Q) | exact (t_question m Hm QM)].
Qed.
