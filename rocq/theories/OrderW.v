(** Witnesses for Prop_Order. The signature scheme of [echo_env] is the strictest possible: the only
    signature of a message is the message itself. *)
From Verif Require Import Base NameM WireM RRM SerM ValM NameSpec RecSpec ValSpec ValP ValP2 ValW OrderSpec.
From Coq Require Import String Permutation.
Local Open Scope N_scope.

Definition echo_env : env :=
  {| e_sha1 := fun _ => []; e_sha256 := fun _ => root_digest_20326; e_sig := fun _ _ m s => bytes_eqb m s;
     e_sort_needs := fun l => l |}.
Lemma echo_sorts : SortsNeeds echo_env.
Proof. intros l. apply Permutation_refl. Qed.
Definition echo (rs : list RR) := verify_rr_stream echo_env false 10 rs.

(** The signature over [rs], as [verify_rrsig] wants it. *)
Definition o_rrsig (nm : string) (ty labels : N) (signer : string) (rs : list RR) : rrsig :=
  let s := w_rrsig nm ty labels signer in
  {| rs_name := rs_name s; rs_ty := rs_ty s; rs_alg := rs_alg s; rs_labels := rs_labels s; rs_orig_ttl := rs_orig_ttl s;
     rs_expiration := rs_expiration s; rs_inception := rs_inception s; rs_key_tag := rs_key_tag s; rs_key_name := rs_key_name s;
     rs_signature := match signed_records false s rs with Ok m => sig_prefix s ++ m | _ => [] end |}.
Definition o_sig nm ty labels signer rs : RR := RR_RRSig (o_rrsig nm ty labels signer rs).
Definition o_zones : list RR :=
  [w_key "."; o_sig "." 48 0 "." [w_key "."]; w_ds "a."; o_sig "a." 43 1 "." [w_ds "a."]; w_key "a."; o_sig "a." 48 1 "a." [w_key "a."]].
Definition o_plain : list RR := o_zones ++ [w_a "x.a."; o_sig "x.a." 1 2 "a." [w_a "x.a."]].
Definition o_nsec : RR := w_nsec "c.a." "z.a." [1].
Definition o_wild : list RR := o_zones ++ [w_a "x.a."; o_sig "x.a." 1 1 "a." [w_a "x.a."]; o_nsec; o_sig "c.a." 47 2 "a." [o_nsec]].
(** The data records moved to the front. *)
Definition o_wild' : list RR := [o_nsec; w_a "x.a."] ++ o_zones ++ [o_sig "x.a." 1 1 "a." [w_a "x.a."]; o_sig "c.a." 47 2 "a." [o_nsec]].

Ltac o_held := unfold Held; cbn [typed_rr o_sig o_rrsig w_rrsig w_key w_ds w_a o_nsec w_nsec rs_name rs_ty rs_alg rs_labels rs_orig_ttl rs_expiration rs_inception rs_key_tag rs_key_name rs_signature];
  repeat match goal with |- _ /\ _ => split | |- is_mask _ => split; [vm_compute; reflexivity|] | |- is_bytes _ => bytes_in_range | |- _ => in_range end.
Ltac o_held_all := unfold o_zones; cbn [app]; repeat (apply Forall_cons; [o_held|]); apply Forall_nil.
Lemma o_plain_held : Forall Held o_plain.
Proof. unfold o_plain. o_held_all. Qed.
Lemma o_wild_held : Forall Held o_wild.
Proof. unfold o_wild. o_held_all. Qed.

Lemma o_plain_ok : exists v, echo o_plain = Ok v /\ vr_rrs v = [w_a "x.a."].
Proof. eexists. split; vm_compute; reflexivity. Qed.
Lemma o_plain_dup : echo (o_plain ++ [w_a "x.a."]) = Err Invalid.
Proof. vm_compute. reflexivity. Qed.
Lemma repeated_refuted : ~ (forall e fuel inp r, Forall Held inp -> In r inp ->
  SameVerdict (verify_rr_stream e false fuel inp) (verify_rr_stream e false fuel (inp ++ [r]))).
Proof.
  intros H. assert (I : In (w_a "x.a.") o_plain) by (unfold o_plain; apply in_or_app; right; left; reflexivity).
  specialize (H echo_env 10%nat o_plain (w_a "x.a.") o_plain_held I). destruct o_plain_ok as (v & E & _). unfold echo in E. rewrite E in H. assert (D := o_plain_dup). unfold echo in D. rewrite D in H. exact H.
Qed.

Lemma o_wild_perm : Permutation o_wild o_wild'.
Proof.
  unfold o_wild, o_wild'. cbn [app]. rewrite (Permutation_app_comm o_zones). cbn [app].
  transitivity (w_a "x.a." :: o_nsec :: o_sig "x.a." 1 1 "a." [w_a "x.a."] :: o_sig "c.a." 47 2 "a." [o_nsec] :: o_zones).
  - constructor. constructor.
  - etransitivity; [apply perm_swap |]. do 2 constructor. apply (Permutation_app_comm [_; _] o_zones).
Qed.
Lemma not_expanded s ls : LabelsOf (rs_name s) ls -> N.of_nat (List.length ls) = rs_labels s -> ~ Expanded s.
Proof. intros A B (_ & C). apply C. eauto. Qed.
Lemma o_wild_hyp s s' : In (RR_RRSig s) o_wild -> In (RR_RRSig s') o_wild -> Expanded s -> rs_ty s' <> 50 /\ (Expanded s' -> rs_key_name s' = rs_key_name s).
Proof.
  assert (G : forall t, In (RR_RRSig t) o_wild -> rs_ty t <> 50 /\ (rs_key_name t = bs "a." \/ ~ Expanded t)).
  - intros t I. unfold o_wild, o_zones, o_nsec, o_sig, w_key, w_ds, w_a, w_nsec in I. cbn [app In] in I.
    repeat match type of I with _ \/ _ => destruct I as [I | I] end; try discriminate I; try contradiction; injection I as <-; (split; [vm_compute; discriminate |]); first [left; reflexivity | right].
    + apply (not_expanded _ []); [split; [reflexivity |]; split; [constructor | discriminate] | reflexivity].
    + apply (not_expanded _ [[97]]); [| reflexivity]. split; [reflexivity |]. split; [| discriminate]. repeat constructor; cbn; try lia; intuition discriminate.
  - intros I I' X. destruct (G s I) as (_ & [A | A]); [| contradiction]. destruct (G s' I') as (T & [B | B]); split; auto; [congruence | contradiction].
Qed.
