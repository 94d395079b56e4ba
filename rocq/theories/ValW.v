(** Concrete record streams for the examples and refutations of Prop_Verify*. The crypto of
    [toy_env] accepts every signature and hashes everything to the 2017 root anchor's digest, so that
    the streams are short; nothing else about them is unusual. *)
From Verif Require Import Base NameM WireM RRM SerM ValM NameSpec RecSpec RecP2 ValSpec.
From Coq Require Import String Permutation.
Local Open Scope N_scope.

Definition toy_env : env :=
  {| e_sha1 := fun _ => []; e_sha256 := fun _ => root_digest_20326; e_sig := fun _ _ _ _ => true;
     e_sort_needs := fun l => l |}.
Lemma toy_sorts : SortsNeeds toy_env.
Proof. intros l. apply Permutation_refl. Qed.

(** A zone key with tag 20326, its DS, and signatures by it. *)
Definition w_key (z : string) : RR :=
  RR_DnsKey {| dk_name := bs z; dk_flags := 257; dk_protocol := 3; dk_alg := 8; dk_pubkey := [1; 3; 74; 90] |}.
Definition w_ds (z : string) : RR :=
  RR_DS {| ds_name := bs z; ds_key_tag := 20326; ds_alg := 8; ds_digest_type := 2; ds_digest := root_digest_20326 |}.
Definition w_rrsig (nm : string) (ty labels : N) (signer : string) : rrsig :=
  {| rs_name := bs nm; rs_ty := ty; rs_alg := 8; rs_labels := labels; rs_orig_ttl := 3600;
     rs_expiration := 2000000000; rs_inception := 1000000000; rs_key_tag := 20326;
     rs_key_name := bs signer; rs_signature := [] |}.
Definition w_sig (nm : string) (ty labels : N) (signer : string) : RR := RR_RRSig (w_rrsig nm ty labels signer).
Definition w_a (nm : string) : RR := RR_A {| a_name := bs nm; a_addr := [127; 0; 0; 1] |}.
Definition w_nsec (nm nx : string) (types : list N) : RR :=
  RR_NSec {| ns_name := bs nm; ns_next := bs nx; ns_types := mask_from_types types |}.

(** The root and one delegation, with their signatures. *)
Definition w_root : list RR := [w_key "."; w_sig "." 48 0 "."].
Definition w_zone (z : string) (labels : N) : list RR :=
  [w_ds z; w_sig z 43 labels "."; w_key z; w_sig z 48 labels z].

Definition run (rs : list RR) := verify_rr_stream toy_env false 10 rs.
Definition w_plain : list RR := w_root ++ w_zone "a." 1 ++ [w_a "x.a."; w_sig "x.a." 1 2 "a."].
Definition w_only_nsec : list RR := w_root ++ w_zone "a." 1 ++ [w_nsec "a." "b.a." [1]; w_sig "a." 47 1 "a."].
Definition w_sibling : list RR := w_root ++ w_zone "a." 1 ++ [w_a "ba."; w_sig "ba." 1 1 "a."].
(* An answer from the wildcard *.a. for x.a.; the NSEC says x.a. exists and has an A record. *)
Definition w_wild_exists : list RR :=
  w_root ++ w_zone "a." 1 ++ [w_a "x.a."; w_sig "x.a." 1 1 "a."; w_nsec "x.a." "z.a." [1]; w_sig "x.a." 47 2 "a."].
Definition w_wild : list RR :=
  w_root ++ w_zone "a." 1 ++ [w_a "x.a."; w_sig "x.a." 1 1 "a."; w_nsec "c.a." "z.a." [1]; w_sig "c.a." 47 2 "a."].

(** ** Checking the witnesses *)
Ltac in_range := vm_compute; reflexivity.
Ltac bytes_in_range := apply is_bytes_ok; vm_compute; reflexivity.
Ltac held_one := unfold Held; cbn [typed_rr w_key w_ds w_sig w_a w_nsec];
  repeat match goal with
  | |- _ /\ _ => split
  | |- is_mask _ => split; [vm_compute; reflexivity|]
  | |- is_bytes _ => bytes_in_range
  | |- _ => in_range
  end.
Ltac held_all := repeat (apply Forall_cons; [held_one|]); apply Forall_nil.

Lemma plain_held_w : Forall Held w_plain.
Proof. held_all. Qed.
Lemma only_nsec_held : Forall Held w_only_nsec.
Proof. held_all. Qed.
Lemma sibling_held : Forall Held w_sibling.
Proof. held_all. Qed.
Lemma wild_exists_held : Forall Held w_wild_exists.
Proof. held_all. Qed.
Lemma wild_held : Forall Held w_wild.
Proof. held_all. Qed.

(* The child zone b.a. denies x.a. of its parent a. *)
Definition w_other_zone : list RR :=
  w_root ++ w_zone "a." 1 ++ [w_a "x.a."; w_sig "x.a." 1 1 "a."; w_ds "b.a."; w_sig "b.a." 43 2 "a."; w_key "b.a.";
    w_sig "b.a." 48 2 "b.a."; w_nsec "b.a." "z.a." [2]; w_sig "b.a." 47 2 "b.a."].
(* A DS RRset synthesised from a wildcard, without any denial. *)
Definition w_wild_ds : list RR :=
  w_root ++ w_zone "a." 1 ++ [w_ds "b.a."; w_sig "b.a." 43 1 "a."; w_key "b.a."; w_sig "b.a." 48 2 "b.a.";
    w_a "b.a."; w_sig "b.a." 1 2 "b.a."].
(* a. signs its own DS RRset. *)
Definition w_self_ds : list RR := w_root ++ w_zone "a." 1 ++ [w_sig "a." 43 1 "a."].
(* An RRSIG with 255 labels and no records. *)
Definition w_labels255 : list RR := w_root ++ [w_sig "x." 1 255 "."].
(* The root DNSKEY RRset signed twice, once for another key tag. *)
Definition w_badsig : RR := RR_RRSig
  {| rs_name := bs "."; rs_ty := 48; rs_alg := 8; rs_labels := 0; rs_orig_ttl := 3600;
     rs_expiration := 2000000000; rs_inception := 1000000000; rs_key_tag := 1;
     rs_key_name := bs "."; rs_signature := [] |}.
Definition w_answer : list RR := w_zone "a." 1 ++ [w_a "x.a."; w_sig "x.a." 1 2 "a."].
Definition w_good_bad : list RR := [w_key "."; w_sig "." 48 0 "."; w_badsig] ++ w_answer.
Definition w_bad_good : list RR := [w_key "."; w_badsig; w_sig "." 48 0 "."] ++ w_answer.

Lemma other_zone_held : Forall Held w_other_zone.
Proof. held_all. Qed.
Lemma wild_ds_held : Forall Held w_wild_ds.
Proof. held_all. Qed.
Lemma root_held : Forall Held w_root.
Proof. held_all. Qed.
Lemma self_ds_held : Forall Held w_self_ds.
Proof. held_all. Qed.
Lemma good_bad_held : Forall Held w_good_bad.
Proof. unfold w_good_bad, w_badsig. held_all. Qed.

(** A decision procedure for [proper_name]. *)
Definition properb (ls : list (list N)) : bool :=
  forallb (fun l => (1 <=? len l) && (len l <=? 63)
    && forallb (fun c => (33 <=? c) && (c <=? 126) && negb (c =? 34) && negb (c =? 46) && negb ((65 <=? c) && (c <=? 90))) l) ls
  && (len (dotted ls) <=? 255).
Lemma proper_w ls : properb ls = true -> proper_name (dotted ls).
Proof.
  unfold properb. rewrite andb_true_iff, forallb_forall, N.leb_le. intros [H L].
  assert (C : forall l, In l ls -> 1 <= len l <= 63 /\ Forall (fun c => label_char c /\ to_lower c = c) l).
  { intros l Hl. specialize (H l Hl). rewrite !andb_true_iff, !N.leb_le in H. destruct H as ((H1 & H2) & H3). split; [lia|].
    rewrite Forall_forall. intros c Hc. rewrite forallb_forall in H3. specialize (H3 c Hc).
    rewrite !andb_true_iff, !negb_true_iff, !N.eqb_neq, !N.leb_le in H3. destruct H3 as ((((A & B) & D) & D2) & E).
    unfold label_char, to_lower. rewrite E. repeat split; auto. }
  exists ls. split; [|split; [reflexivity|]].
  - split; [|unfold len in L; lia]. rewrite Forall_forall. intros l Hl. destruct (C l Hl) as [C1 C2]. split.
    + intros ->. unfold len in C1. cbn in C1. lia.
    + split; [unfold len in C1; lia|]. eapply Forall_impl; [|exact C2]. intros c [Q _]. exact Q.
  - assert (K : lower (dots ls) = dots ls).
    { unfold lower, dots. clear - C. induction ls as [|l ls IH]; [reflexivity|]. cbn [map List.concat]. rewrite !map_app. cbn [map].
      rewrite IH by (intros; apply C; right; auto). change (to_lower 46) with 46. do 2 f_equal.
      destruct (C l (or_introl eq_refl)) as [_ F]. clear - F. induction F as [|c l [_ Hc] _ IHl]; [reflexivity|]. cbn [map]. rewrite IHl, Hc. reflexivity. }
    destruct ls; [reflexivity|exact K].
Qed.
