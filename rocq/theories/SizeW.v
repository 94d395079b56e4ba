(** A family of responses which the builder makes as much as it can of (C78). *)
From Verif Require Import Base BaseP NameM NameSpec NameP WireM WireSpec WireP RRM SerM RecSpec RecP RecP2 RecP3 HeldP ValSpec ValW ValP QueryM QBufP QuerySpec QueryP QueryP2 QueryP3 QueryP4 QueryW SizeP.
From Coq Require Import Arith.
Local Open Scope N_scope.

Definition z_wire : list N := wire_name big_labels.
Definition z_name : list N := dotted big_labels.
(** CNAME of the long name to itself: 14 octets with pointers. *)
Definition z_rec : list N := [192; 12] ++ u16 5 ++ u16 1 ++ u32 60 ++ u16 2 ++ [192; 12].
Definition z_rr : RR := RR_CName {| cn_name := z_name; cn_canonical := z_name |}.
(** A response with [k] of these, to a question for this name. *)
Definition z_body (k : nat) : list N := concat (repeat z_rec k).
Definition z_msg (k : nat) : list N :=
  u16 0 ++ u16 q_ok ++ u16 1 ++ u16 (N.of_nat k) ++ u16 0 ++ u16 0 ++ z_wire ++ u16 5 ++ u16 1 ++ z_body k ++ [] ++ [].

Lemma z_labels : Forall (fun l => l <> [] /\ label_ok l) big_labels.
Proof.
  assert (X : forall n, (1 <= n <= 63)%nat -> repeat 97 n <> [] /\ label_ok (repeat 97 n)).
  { intros n Hn. split; [destruct n; [lia | discriminate] |]. split; [rewrite repeat_length; lia |]. apply Forall_forall. intros c Hc. apply repeat_spec in Hc. subst c. unfold label_char. lia. }
  unfold big_labels. repeat (apply Forall_cons; [apply X; lia |]). apply Forall_nil.
Qed.
Lemma wire_at pkt d ls rest : Forall (fun l => l <> [] /\ label_ok l) ls -> NameEnc pkt d (wire_name ls ++ rest) (dots ls) rest.
Proof.
  intros H. induction H as [| l ls [Hl [Hlen Hc]] Hls IH]; [constructor |]. unfold wire_name. cbn [wire_labels flat_map app]. rewrite dots_cons, <- !app_assoc.
  apply NE_label; [destruct l; [congruence | cbn [length]; lia] | left; lia | reflexivity |]. unfold wire_name in IH. rewrite <- app_assoc in IH. exact IH.
Qed.
Lemma z_good : acceptable (dots big_labels) /\ lower (dots big_labels) = z_name.
Proof.
  split; [| vm_compute; reflexivity]. exists big_labels. split; [discriminate |]. split; [reflexivity |].
  split; [eapply Forall_impl; [| exact z_labels]; cbn beta; tauto |]. apply Nat.leb_le. vm_compute. reflexivity.
Qed.
Lemma z_question k : NameIn (z_msg k) z_wire z_name.
Proof.
  destruct z_good as [A L]. exists (dots big_labels). assert (E := wire_at (z_msg k) 255 big_labels [] z_labels). rewrite app_nil_r in E.
  split; [exact E |]. change (text_or_root (dots big_labels)) with (dots big_labels). auto.
Qed.
Lemma z_pointer k : NameIn (z_msg k) [192; 12] z_name.
Proof.
  destruct z_good as [A L]. exists (dots big_labels). split; [| change (text_or_root (dots big_labels)) with (dots big_labels); auto].
  assert (E := wire_at (z_msg k) 254 big_labels (u16 5 ++ u16 1 ++ z_body k ++ [] ++ []) z_labels).
  apply (NE_ptr (z_msg k) 254 192 12 [] (dots big_labels) (u16 5 ++ u16 1 ++ z_body k ++ [] ++ [])); [lia | | exact E]. unfold z_msg. rewrite !app_length. cbn [u16 length]. lia.
Qed.
Lemma z_record lax k : RecordEnc (NameIn (z_msg k)) lax z_rec z_rr 60.
Proof.
  apply (RecordEnc_intro _ _ [192; 12] z_name 5 60 z_rr [192; 12]); [apply z_pointer |].
  apply (RD_CName _ _ z_name [192; 12] z_name []); [apply z_pointer | right; reflexivity].
Qed.
Lemma z_records lax k : forall j, Records lax (z_msg k) (z_body j) (repeat (z_rr, 60) j).
Proof. induction j as [| j IH]; [constructor |]. unfold z_body. cbn [repeat concat]. constructor; [apply z_record | exact IH]. Qed.
Lemma z_response lax k : (1 <= k)%nat -> Response lax (z_msg k) (repeat (z_rr, 60) k).
Proof.
  intros K. exists q_ok, (repeat (z_rr, 60) k), []. split.
  - apply (Message_intro _ _ q_ok 0 z_wire z_name 5 1 (z_body k) _ [] [] []); [rewrite repeat_length; reflexivity | apply z_question | apply z_records | constructor].
  - repeat match goal with |- _ /\ _ => split end; try (vm_compute; reflexivity); [left; vm_compute; reflexivity | destruct k; [lia | discriminate] |].
    unfold contribution. cbn [filter]. rewrite app_nil_r. reflexivity.
Qed.
Lemma z_bytes k : N.of_nat k < 65536 -> is_bytes (z_msg k).
Proof.
  intros K. unfold z_msg. repeat (apply is_bytes_app; split); try (apply is_bytes_ok; vm_compute; reflexivity).
  - unfold u16. constructor; [unfold is_u8; apply N.div_lt_upper_bound; [discriminate | lia] |]. constructor; [unfold is_u8; apply N.mod_lt; discriminate | constructor].
  - unfold z_body. induction k as [| k IH]; [constructor |]. cbn [repeat concat]. apply is_bytes_app. split; [apply is_bytes_ok; vm_compute; reflexivity | apply IH; lia].
Qed.
Lemma z_len k : length_of (z_msg k) = 272 + 14 * N.of_nat k.
Proof.
  unfold z_msg, length_of. rewrite !app_length. assert (X : length (z_body k) = (14 * k)%nat).
  { unfold z_body. induction k as [| k IH]; [reflexivity |]. cbn [repeat concat]. rewrite app_length, IH. cbn [z_rec app u16 u32 length]. lia. }
  rewrite X. assert (W : length z_wire = 256%nat) by (vm_compute; reflexivity). rewrite W. cbn [u16 length]. lia.
Qed.
Lemma z_written k : len (write_all (repeat (z_rr, 60) k)) = 522 * N.of_nat k.
Proof.
  induction k as [| k IH]; [reflexivity |]. cbn [repeat]. change (write_all ((z_rr, 60) :: ?l)) with (write_rr z_rr 60 ++ write_all l). rewrite len_app, IH.
  assert (W : len (write_rr z_rr 60) = 522) by (vm_compute; reflexivity). rewrite W. lia.
Qed.
Lemma tight dbg k : (1 <= k)%nat -> N.of_nat k < 65536 -> exists b proof, is_bytes (z_msg k) /\ length_of (z_msg k) = 272 + 14 * N.of_nat k /\
  process_response dbg builder_init (z_msg k) = (Ok [], b) /\ finish_proof b = Ok (proof, 60) /\ length_of proof = 522 * N.of_nat k.
Proof.
  intros K L. assert (H := handle_complete dbg (z_msg k) (repeat (z_rr, 60) k) (pb_proof builder_init) [] (proj1 (is_bytes_ok _) (z_bytes k L)) (z_response _ k K)).
  assert (O : no_overflow dbg (repeat (z_rr, 60) k)). { intros _. apply Forall_forall. intros x Hx. apply repeat_spec in Hx. subst x. reflexivity. }
  specialize (H O). assert (S0 : flat_map signer_of (repeat (z_rr, 60) k) = []) by (clear; induction k as [| k IH]; [reflexivity | exact IH]).
  assert (T : min_ttl (repeat (z_rr, 60) k) (2 ^ 32 - 1) = 60).
  { destruct k as [| k]; [lia |]. clear. change (min_ttl (repeat (z_rr, 60) (S k)) (2 ^ 32 - 1)) with (min_ttl (repeat (z_rr, 60) k) 60). induction k as [| k IH]; [reflexivity |]. exact IH. }
  rewrite S0, T in H. eexists. exists (write_all (repeat (z_rr, 60) k)). split; [apply z_bytes; exact L |]. split; [apply z_len |].
  split; [unfold process_response; change (pb_pending builder_init =? 0) with false; rewrite H; reflexivity |]. split; [reflexivity |]. apply z_written.
Qed.
(** The length of the proof from one response. *)
Definition proof_size (m : list N) : option N := match finished [m] with Ok (proof, _) => Some (length_of proof) | _ => None end.
