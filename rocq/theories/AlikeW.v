(** Witnesses for Prop_Alike. *)
From Verif Require Import Base NameM WireM RRM SerM ValM NameSpec WireSpec BitmapSpec RecSpec RecP2 ValW AlikeSpec AlikeP.
From Coq Require Import String.
Local Open Scope N_scope.

(** Records which differ in TTL, the case of letters, the cutting of strings and the form of the bitmap. *)
Definition k_rec (owner : list bytes) (ty ttl : N) (data : bytes) : bytes := wire_name owner ++ u16 ty ++ u16 1 ++ u32 ttl ++ u16 (length_of data) ++ data.
Definition k_one : bytes := k_rec [[97]] 16 60 [3; 65; 66; 67] ++ k_rec [[97]] 47 60 (wire_name [[98]] ++ [0; 1; 64]).
Definition k_two : bytes := k_rec [[65]] 16 7 [1; 65; 0; 2; 66; 67] ++ k_rec [[65]] 47 7 (wire_name [[66]] ++ [0; 1; 32; 0; 2; 64; 0]).
Definition k_rrs : list RR := match parse_rr_stream true k_one with Ok rs => rs | _ => [] end.
Lemma k_one_rrs : parse_rr_stream true k_one = Ok k_rrs.
Proof. unfold k_rrs. destruct (parse_rr_stream true k_one) eqn:E; try reflexivity; vm_compute in E; discriminate. Qed.
Lemma k_texts : map rr_name k_rrs = [bs "a."; bs "a."] /\ map rr_ty k_rrs = [16; 47].
Proof. vm_compute. auto. Qed.
Lemma k_types : SameTypes [0; 1; 64] [0; 1; 32; 0; 2; 64; 0].
Proof.
  assert (E : WireM.read_nsec_types_bitmap [0; 1; 64] = WireM.read_nsec_types_bitmap [0; 1; 32; 0; 2; 64; 0]) by (vm_compute; reflexivity).
  destruct (WireM.read_nsec_types_bitmap [0; 1; 64]) as [m | | |] eqn:E1; try (vm_compute in E1; discriminate). exists m. split; apply BitmapP.read_bitmap_spec; congruence.
Qed.
Ltac k_name := split; [repeat (apply Forall_cons; [cbn; lia |]); apply Forall_nil | split; [repeat (apply Forall_cons; [cbn; lia |]); apply Forall_nil | reflexivity]].
Lemma k_same lax : SameStream lax k_one k_two.
Proof.
  apply SS_cons; [| rewrite <- (app_nil_r (k_rec _ _ _ (wire_name [[98]] ++ _))), <- (app_nil_r (k_rec _ _ _ (wire_name [[66]] ++ _))); apply SS_cons; [| apply SS_nil]].
  - unfold k_rec. apply SR_intro; [k_name |]. apply (SD_txt _ [[65; 66; 67]] [[65]; []; [66; 67]]). reflexivity.
  - unfold k_rec. apply SR_intro; [k_name |]. apply SD_nsec; [k_name | exact k_types].
Qed.
Lemma k_one_bytes : is_bytes k_one. Proof. bytes_in_range. Qed.
Lemma k_two_bytes : is_bytes k_two. Proof. bytes_in_range. Qed.

(** One label "a.b", and two labels "a" and "b". *)
Lemma labels_refuted : ~ (forall dbg ls ls' tail rs, is_bytes (wire_name ls ++ tail) -> is_bytes (wire_name ls' ++ tail) ->
  Forall (fun l => (1 <= List.length l <= 63)%nat) ls -> Forall (fun l => (1 <= List.length l <= 63)%nat) ls' ->
  parse_rr_stream dbg (wire_name ls ++ tail) = Ok rs -> parse_rr_stream dbg (wire_name ls' ++ tail) = Ok rs -> map lower ls = map lower ls').
Proof.
  intros H. specialize (H true [[97; 46; 98]] [[97]; [98]] (u16 1 ++ u16 1 ++ u32 0 ++ u16 4 ++ [10; 0; 0; 1]) [RR_A {| a_name := bs "a.b."; a_addr := [10; 0; 0; 1] |}]).
  assert (E : map lower [[97; 46; 98]] = map lower [[97]; [98]]); [| discriminate E].
  apply H; try bytes_in_range; try (repeat (apply Forall_cons; [cbn; lia |]); apply Forall_nil); vm_compute; reflexivity.
Qed.
Lemma k_differ : k_one <> k_two.
Proof. intros H. apply (f_equal (fun l => nth 1 l 0)) in H. vm_compute in H. discriminate. Qed.
