(** Witnesses for Prop_Both. *)
From Verif Require Import Base BaseP NameM NameSpec WireM RRM SerM RecSpec RecP2 ValM QueryM QuerySpec AcceptSpec OrderW JsonM WasmM WasmSpec DohM DohSpec DohP DohP2 DohP3 LiveSpec LiveW LiveW2 QueryW WasmW ArriveSpec ArriveP ArriveP2 ArriveW BothP.
From Coq Require Import String Lia List PeanoNat Permutation.
Import ListNotations.
Local Open Scope N_scope.

(** The resolver of ArriveW, over HTTPS. *)
Definition bo_end : list N := bs "https://r/".
Definition bo_fetch (i : nat) (u : list N) : fetched :=
  Body match find (fun p => bytes_eqb (doh_url bo_end (fst p)) u) y_table with Some p => snd p | None => [] end.
Lemma url_same q u : GetUrl bo_end q u -> forall q', is_bytes q' -> bytes_eqb (doh_url bo_end q') u = bytes_eqb q' q.
Proof.
  intros (t & B & ->) q' B'. destruct (get_url bo_end q' B') as (t' & T' & E). rewrite E. destruct (bytes_eqb q' q) eqn:X.
  - apply bytes_eqb_eq in X as ->. rewrite (url_unique _ _ _ T' B). apply bytes_eqb_refl.
  - destruct (bytes_eqb (bo_end ++ bs "?dns=" ++ t') (bo_end ++ bs "?dns=" ++ t)) eqn:Y; [| reflexivity]. exfalso. apply bytes_eqb_eq in Y. apply app_inv_head, app_inv_head in Y. subst t'.
    rewrite (url_decodes _ _ _ T' B), bytes_eqb_refl in X. discriminate X.
Qed.
Lemma find_same {A} (f g : A -> bool) l : (forall x, In x l -> f x = g x) -> find f l = find g l.
Proof. induction l as [| x l IH]; intros H; [reflexivity |]. cbn [find]. rewrite (H x (or_introl eq_refl)), IH; [reflexivity |]. intros y Hy. apply H. right. exact Hy. Qed.
Lemma bo_serves i q u : GetUrl bo_end q u -> bo_fetch i u = Body (y_answer q).
Proof.
  intros G. unfold bo_fetch, y_answer, table. do 1 f_equal. rewrite (find_same _ (fun p => bytes_eqb (fst p) q)); [reflexivity |]. intros p I. apply url_same; [exact G |].
  assert (H : forallb (fun p => bytes_ok (fst p)) y_table = true) by (vm_compute; reflexivity). rewrite forallb_forall in H. apply is_bytes_ok, H, I.
Qed.
Lemma bo_bytes i u m : bo_fetch i u = Body m -> is_bytes m.
Proof.
  intros H. assert (E : m = match find (fun p => bytes_eqb (doh_url bo_end (fst p)) u) y_table with Some p => snd p | None => [] end) by (apply (f_equal (fun f => match f with Body x => x | _ => [] end)) in H; symmetry; exact H).
  rewrite E. clear. assert (H : forallb (fun p => bytes_ok (snd p)) y_table = true) by (vm_compute; reflexivity). revert H. generalize y_table as t. intros t H.
  destruct (find _ t) as [p |] eqn:E; [| constructor]. apply find_some in E as [I _]. rewrite forallb_forall in H. apply is_bytes_ok, H, I.
Qed.
Lemma bo_answers q : is_bytes (y_answer q) /\ length_of (y_answer q) < 65535.
Proof.
  split; [apply y_bytes |]. unfold y_answer, table. assert (H : forallb (fun p => length_of (snd p) <? 65535) y_table = true) by (vm_compute; reflexivity). revert H. generalize y_table as t. intros t H.
  destruct (find _ t) as [p |] eqn:E; [| reflexivity]. apply find_some in E as [I _]. rewrite forallb_forall in H. apply N.ltb_lt. exact (H _ I).
Qed.
Definition bo_run : js_result * list (list N) := lookup_doh echo_env false 10 Some [] bo_fetch bo_end 11 (bs "X.a") (TyText (bs "A")).
Definition bo_text : list N := bs "{""valid_from"": 1000000000, ""expires"": 2000000000, ""max_cache_ttl"": 3600, ""verified_rrs"": [{""type"":""a"",""name"":""x.a."",""address"":[127, 0, 0, 1]}]}".
Lemma bo_found : bo_run = (JText bo_text, map (doh_url bo_end) y_order).
Proof. vm_compute. reflexivity. Qed.

(** An answer of 65535 octets: it can be sent over TCP, but the page ignores it. *)
Definition lo_answer (q : list N) : list N := m_longest.
Definition lo_fetch (i : nat) (u : list N) : fetched := Body m_longest.
Definition lo_built : builder := snd (process_response false builder_init m_longest).
Lemma lo_bytes : is_bytes m_longest /\ length_of m_longest <= 65535.
Proof. split; [apply is_bytes_ok; vm_compute; reflexivity | apply N.leb_le; vm_compute; reflexivity]. Qed.
Lemma lo_arrives : Arrive false lo_answer builder_init [qb_deref root_query] [qb_deref root_query] lo_built [].
Proof.
  apply (Arrive_one false lo_answer builder_init [] (qb_deref root_query) [] [] lo_built [] lo_built []); [| constructor]. unfold lo_answer, lo_built.
  assert (H : fst (process_response false builder_init m_longest) = Ok []) by (vm_compute; reflexivity). destruct (process_response false builder_init m_longest) as [o b]. cbn [fst snd] in *. rewrite H. reflexivity.
Qed.
Lemma lo_lookup : fst (lookup_doh echo_env false 0 (fun _ => None) [] lo_fetch bo_end 11 (bs ".") (TyText (bs "A"))) = JText build_failed.
Proof. vm_compute. reflexivity. Qed.
Lemma limit_refuted : ~ (forall e dbg reparse trap (fetch : nat -> list N -> fetched) endpoint answer domain typ ty n b0 q0, (forall q, is_bytes (answer q) /\ length_of (answer q) <= 65535) ->
  (forall i q u, GetUrl endpoint q u -> fetch i u = Body (answer q)) -> (forall i u m, fetch i u = Body m -> is_bytes m) ->
  TypeName typ ty -> name_try_from (completed domain) = Some n -> builder_new n ty = Ok (b0, q0) ->
  forall order b p ttl k fuel, (11 <= k)%nat -> Arrive dbg answer b0 [qb_deref q0] order b [] -> finish_proof b = Ok (p, ttl) ->
  exists r urls p', lookup_doh e dbg fuel reparse trap fetch endpoint k domain (TyText typ) = (r, urls) /\ Checked e dbg fuel reparse p' r).
Proof.
  intros H. destruct longest_proof as (p & ttl & F).
  assert (T : TypeName (bs "A") 1) by (apply type_spec; vm_compute; reflexivity).
  destruct (H echo_env false (fun _ => None) [] lo_fetch bo_end lo_answer (bs ".") (bs "A") 1 [46] builder_init root_query (fun _ => lo_bytes) (fun _ _ _ _ => eq_refl)) with (order := [qb_deref root_query]) (b := lo_built) (p := p) (ttl := ttl) (k := 11%nat) (fuel := 0%nat) as (r & urls & p' & L & C).
  - intros i u m X. injection X as <-. apply lo_bytes.
  - exact T.
  - vm_compute. reflexivity.
  - exact root_builder.
  - lia.
  - exact lo_arrives.
  - exact F.
  - pose proof lo_lookup as Q. rewrite L in Q. cbn [fst] in Q. subst r. inversion C. discriminate.
Qed.
