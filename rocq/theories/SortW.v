(** C32: for each type with names or salts in its RDATA, two records which are sorted the wrong way round. *)
From Verif Require Import Base BaseP NameM WireM RRM SerM ValM NameSpec NameP WireSpec RecSpec RecP RecP2 ValSpec SignedSpec
  SignedP ValP ValP2 ValP3 ValP4 ValP5 HeldP OrdRR ValW ValW2.
From Coq Require Import String Permutation Sorted Arith.
Local Open Scope N_scope.

Lemma wrong_pair ty r1 r2 : wf_rr r1 -> wf_rr r2 -> rr_name r1 = bs "a." -> rr_name r2 = bs "a." -> rr_ty r1 = ty -> rr_ty r2 = ty ->
  rr_cmp r1 r2 = Lt -> bytes_cmp (rdata r1) (rdata r2) = Gt ->
  exists rs n, Forall wf_rr rs /\ Forall (fun r => rr_name r = n /\ rr_ty r = ty) rs /\ ~ CanonicalOrder (sort_by rr_cmp rs).
Proof.
  intros W1 W2 N1 N2 T1 T2 L G. exists [r1; r2], (bs "a."). split; [constructor; [exact W1|constructor; [exact W2|constructor]]|].
  split; [constructor; [auto|constructor; [auto|constructor]]|]. cbn [sort_by insert_by]. rewrite L.
  intros C. inversion C as [|? ? _ F]; subst. inversion F as [|? ? Le _]; subst. apply rdata_le in Le; auto.
  apply octets_le_cmp in Le. congruence.
Qed.

Definition o_cname (s : string) : RR := RR_CName {| cn_name := bs "a."; cn_canonical := bs s |}.
Definition o_dname (s : string) : RR := RR_DName {| dn_name := bs "a."; dn_delegation := bs s |}.
Definition o_sig (s : string) : RR := RR_RRSig {| rs_name := bs "a."; rs_ty := 1; rs_alg := 13; rs_labels := 1; rs_orig_ttl := 5; rs_expiration := 9; rs_inception := 2;
  rs_key_tag := 7; rs_key_name := bs s; rs_signature := [1] |}.
Definition o_nsec (s : string) : RR := RR_NSec {| ns_name := bs "a."; ns_next := bs s; ns_types := mask_from_types [1] |}.
Definition o_nsec3 (salt : list N) : RR := RR_NSec3 {| n3_name := bs "a."; n3_algo := 1; n3_flags := 0; n3_iters := 0; n3_salt := salt; n3_next_hash := [3];
  n3_types := mask_from_types [1] |}.
Lemma o_mask : is_mask (mask_from_types [1]).
Proof. split; [vm_compute; reflexivity|]. apply is_bytes_ok. vm_compute. reflexivity. Qed.
Lemma o_names : proper_name (bs "a.") /\ proper_name (bs "aa.") /\ proper_name (bs "b.").
Proof. split; [apply (proper_w [[97]]); reflexivity|]. split; [apply (proper_w [[97; 97]])|apply (proper_w [[98]])]; reflexivity. Qed.
Ltac o_name := destruct o_names as (? & ? & ?); assumption.

(** The types of which every RRset is put in canonical order are exactly the others. *)
Lemma wrong_types ty : In ty [2; 5; 39; 46; 47; 50] ->
  exists rs n, Forall wf_rr rs /\ Forall (fun r => rr_name r = n /\ rr_ty r = ty) rs /\ ~ CanonicalOrder (sort_by rr_cmp rs).
Proof.
  intros H. pose proof o_mask as M. repeat (destruct H as [<-|H]); [| | | | | |destruct H].
  - apply (wrong_pair _ (w_ns "aa.") (w_ns "b.")); try reflexivity; (split; [split; o_name|split; exact I]).
  - apply (wrong_pair _ (o_cname "aa.") (o_cname "b.")); try reflexivity; (split; [split; o_name|split; exact I]).
  - apply (wrong_pair _ (o_dname "aa.") (o_dname "b.")); try reflexivity; (split; [split; o_name|split; exact I]).
  - apply (wrong_pair _ (o_sig "aa.") (o_sig "b.")); try reflexivity; (split; [|split; [vm_compute; discriminate|exact I]]);
      (split; [o_name|]); do 7 (split; [unfold is_u8, is_u16, is_u32; cbn; lia|]); (split; [o_name|]); repeat constructor.
  - apply (wrong_pair _ (o_nsec "aa.") (o_nsec "b.")); try reflexivity; (split; [split; [o_name|split; [o_name|exact M]]|split; exact I]).
  - apply (wrong_pair _ (o_nsec3 [1; 2]) (o_nsec3 [2])); try reflexivity; (split; [|split; [split; vm_compute; discriminate|exact I]]);
      (split; [o_name|]); do 3 (split; [unfold is_u8, is_u16; cbn; lia|]); (split; [repeat constructor|split; [repeat constructor|exact M]]).
Qed.
Lemma sorted_exact ty : (forall rs n, Forall wf_rr rs -> Forall (fun r => rr_name r = n /\ rr_ty r = ty) rs -> CanonicalOrder (sort_by rr_cmp rs)) <->
  ~ In ty [2; 5; 39; 46; 47; 50].
Proof.
  split.
  - intros H I. destruct (wrong_types ty I) as (rs & n & W & T & C). apply C. eapply H; eassumption.
  - intros NI rs n W T. destruct rs as [|r rs]; [constructor|]. assert (P : plain_type ty).
    { inversion T as [|? ? [_ E] _]; subst. destruct r; cbn in NI |- *; unfold plain_type; cbn; tauto. }
    destruct (proj2 (canonical_sort (r :: rs) n ty (sort_by rr_cmp (r :: rs)) W T P) eq_refl). assumption.
Qed.
