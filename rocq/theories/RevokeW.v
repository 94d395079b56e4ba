(** Witnesses for Prop_Revoke. *)
From Verif Require Import Base BaseP NameM WireM RRM SerM ValM NameSpec RecSpec ValSpec ValP ValP2 ValP3 SignedP ValW ValW2 OrderW AcceptSpec RevokeSpec.
From Coq Require Import String Permutation.
Local Open Scope N_scope.

(** Hash functions without collisions, which take two keys of the root to the digests of the anchors. *)
Definition rv_old : dnskey := {| dk_name := [46]; dk_flags := 257; dk_protocol := 3; dk_alg := 8; dk_pubkey := [] |}.
Definition rv_sha (x : bytes) : bytes :=
  if bytes_eqb x (key_id (key_of ".")) then root_digest_20326 else if bytes_eqb x (key_id rv_old) then root_digest_19036 else 0 :: x.
Definition rv_env : env := {| e_sha1 := fun x => x; e_sha256 := rv_sha; e_sig := fun _ _ m s => bytes_eqb m s; e_sort_needs := fun l => l |}.
Lemma rv_sorts : SortsNeeds rv_env.
Proof. intros l. apply Permutation_refl. Qed.
Lemma rv_no_collision : ~ Collision (e_sha1 rv_env) /\ ~ Collision (e_sha256 rv_env).
Proof.
  split; intros (x & y & NE & E); apply NE; [exact E |]. cbn [e_sha256 rv_env] in E. unfold rv_sha in E.
  destruct (bytes_eqb x (key_id (key_of "."))) eqn:X1; destruct (bytes_eqb y (key_id (key_of "."))) eqn:Y1; try apply bytes_eqb_eq in X1; try apply bytes_eqb_eq in Y1; try congruence;
    destruct (bytes_eqb x (key_id rv_old)) eqn:X2; destruct (bytes_eqb y (key_id rv_old)) eqn:Y2; try apply bytes_eqb_eq in X2; try apply bytes_eqb_eq in Y2; try congruence; try discriminate E.
Qed.

(** The zone a. has a key which its DS record is for, and a revoked one. *)
Definition rv_key : dnskey := {| dk_name := bs "a."; dk_flags := 384; dk_protocol := 3; dk_alg := 8; dk_pubkey := [1; 3; 74; 91] |}.
Definition rv_ds : RR :=
  RR_DS {| ds_name := bs "a."; ds_key_tag := 20326; ds_alg := 8; ds_digest_type := 2; ds_digest := 0 :: key_id (key_of "a.") |}.
Definition rv_rrsig (nm : string) (ty labels tag : N) (signer : string) (rs : list RR) : rrsig :=
  let s := {| rs_name := bs nm; rs_ty := ty; rs_alg := 8; rs_labels := labels; rs_orig_ttl := 3600; rs_expiration := 2000000000;
              rs_inception := 1000000000; rs_key_tag := tag; rs_key_name := bs signer; rs_signature := [] |} in
  {| rs_name := rs_name s; rs_ty := rs_ty s; rs_alg := rs_alg s; rs_labels := rs_labels s; rs_orig_ttl := rs_orig_ttl s;
     rs_expiration := rs_expiration s; rs_inception := rs_inception s; rs_key_tag := rs_key_tag s; rs_key_name := rs_key_name s;
     rs_signature := match signed_records false s rs with Ok m => sig_prefix s ++ m | _ => [] end |}.
Definition rv_zones : list RR :=
  [w_key "."; RR_RRSig (rv_rrsig "." 48 0 20326 "." [w_key "."]); rv_ds; RR_RRSig (rv_rrsig "a." 43 1 20326 "." [rv_ds]);
   w_key "a."; RR_DnsKey rv_key; RR_RRSig (rv_rrsig "a." 48 1 20326 "a." [w_key "a."; RR_DnsKey rv_key])].
(** An address signed by the first key, and by the revoked one only. *)
Definition rv_good : list RR := rv_zones ++ [w_a "x.a."; RR_RRSig (rv_rrsig "x.a." 1 2 20326 "a." [w_a "x.a."])].
Definition rv_bad : list RR := rv_zones ++ [w_a "x.a."; RR_RRSig (rv_rrsig "x.a." 1 2 (key_tag rv_key) "a." [w_a "x.a."])].
Ltac rv_held_all := unfold rv_zones; cbn [app]; repeat (apply Forall_cons; [unfold rv_key, rv_ds, rv_rrsig, w_key, w_a; unfold Held; cbn [typed_rr rs_name rs_ty rs_alg rs_labels rs_orig_ttl rs_expiration rs_inception rs_key_tag rs_key_name rs_signature];
  repeat match goal with |- _ /\ _ => split | |- is_bytes _ => bytes_in_range | |- _ => in_range end |]); apply Forall_nil.
Lemma rv_good_held : Forall Held rv_good.
Proof. unfold rv_good. rv_held_all. Qed.
Lemma rv_bad_held : Forall Held rv_bad.
Proof. unfold rv_bad. rv_held_all. Qed.
Lemma rv_good_ok : exists v, verify_rr_stream rv_env false 10 rv_good = Ok v /\ vr_rrs v = [w_a "x.a."].
Proof. eexists. split; vm_compute; reflexivity. Qed.
Lemma rv_bad_ok : exists v, verify_rr_stream rv_env false 10 rv_bad = Ok v /\ vr_rrs v = [w_a "x.a."].
Proof. eexists. split; vm_compute; reflexivity. Qed.
Lemma revoked_refuted : ~ (forall e dbg fuel inp v, Forall Held inp -> SortsNeeds e -> verify_rr_stream e dbg fuel inp = Ok v -> forall r, In r (vr_rrs v) -> SignedAlive e inp r).
Proof.
  intros H. destruct rv_bad_ok as (v & E & R).
  destruct (H rv_env false 10%nat rv_bad v rv_bad_held rv_sorts E (w_a "x.a.")) as (z & s & k & _ & S1 & <- & K & A & B & C); [rewrite R; left; reflexivity |].
  apply in_rrset in C as (_ & C1 & C2). unfold rv_bad, rv_zones in S1. cbn [app In] in S1.
  repeat match goal with H : _ \/ _ |- _ => destruct H as [H | H] end; try discriminate; try contradiction; injection S1 as <-; try discriminate.
  destruct B as ((B & _) & _). cbn [rv_rrsig rs_key_tag] in B.
  apply in_rrset in K as (K & K1 & _). unfold rv_bad, rv_zones in K. cbn [app In] in K.
  repeat match goal with H : _ \/ _ |- _ => destruct H as [H | H] end; try discriminate; try contradiction; injection K as <-; try discriminate.
  apply A. reflexivity.
Qed.
Lemma rv_root_anchors : root_anchors = delegations rv_good [46].
Proof. reflexivity. Qed.
Lemma rv_reached : Reached rv_env rv_good [46] /\ Reached rv_env rv_good (bs "a.").
Proof.
  split; [constructor |]. change (bs "a.") with (rs_name (rv_rrsig "a." 43 1 20326 "." [rv_ds])). eapply Re_child; [constructor | | reflexivity].
  split; [in_inp |]. split; [auto |]. split; [reflexivity |].
  assert (V : verify_rrsig rv_env false (rv_rrsig "a." 43 1 20326 "." [rv_ds]) [key_of "."] (rrset rv_good (bs "a.") 43) = Ok tt) by (vm_compute; reflexivity).
  apply verify_rrsig_sigby in V as (k & [<- | []] & K).
  - exists (key_of "."). split; [apply in_rrset; split; [in_inp | split; reflexivity] | exact K].
  - eapply (held_rrsig rv_good); [exact rv_good_held | in_inp].
  - apply held_rrset, rv_good_held.
  - constructor; [| constructor]. bytes_in_range.
Qed.
Lemma rv_made z : z = [46] \/ z = bs "a." -> forall d, In d (delegations rv_good z) -> exists k, dk_name k = z /\ ~ Revoked k /\ MadeFor rv_env d k.
Proof.
  intros [-> | ->] d I.
  - rewrite <- rv_root_anchors in I. destruct I as [<- | [<- | []]]; [exists rv_old | exists (key_of ".")]; (split; [reflexivity |]; split; [discriminate |]; split; [vm_compute; reflexivity | discriminate]).
  - assert (X : delegations rv_good (bs "a.") = flat_map ds_of [rv_ds]) by (vm_compute; reflexivity). rewrite X in I. destruct I as [<- | []].
    exists (key_of "a."). split; [reflexivity |]. split; [discriminate |]. split; [vm_compute; reflexivity | discriminate].
Qed.
Lemma rv_revoked : Revoked rv_key /\ ~ Revoked (key_of "a.").
Proof. split; [reflexivity | discriminate]. Qed.
