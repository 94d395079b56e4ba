(** Witnesses for Prop_Canon: signatures over RRsets on the wire, in the scheme of [echo_env] (the only signature of a message is
    the message itself). *)
From Verif Require Import Base BaseP NameM WireM RRM SerM ValM NameSpec WireSpec BitmapSpec CodecSpec RecSpec RecP2 ValSpec ValP ValP2 ValW ValW2 OrderW SignedSpec CanonSpec CanonP.
From Coq Require Import String Permutation Sorted.
Local Open Scope N_scope.

Definition c_sig (ty labels : N) (pieces : list bytes) : rrsig :=
  {| rs_name := bs "x.a."; rs_ty := ty; rs_alg := 8; rs_labels := labels; rs_orig_ttl := 3600;
     rs_expiration := 2000000000; rs_inception := 1000000000; rs_key_tag := 20326; rs_key_name := bs "a.";
     rs_signature := u16 ty ++ 8 :: labels :: u32 3600 ++ u32 2000000000 ++ u32 1000000000 ++ u16 20326 ++ wire_name [[97]] ++ List.concat pieces |}.
Definition c_keys : list dnskey := [key_of "a."].
Definition c_piece (owner : bytes) (ty : N) (data : bytes) : bytes := owner ++ u16 ty ++ u16 1 ++ u32 3600 ++ u16 (length_of data) ++ data.
(** X.a. on the wire, and what is signed for it: x.a. or *.a. *)
Definition c_xa : list bytes := [[88]; [97]].
Definition c_owner : bytes := wire_name [[120]; [97]].
Definition c_star : bytes := 1 :: 42 :: wire_name [[97]].
Definition c_rr (ty : N) (data : bytes) : wire_rr := {| wr_owner := c_xa; wr_type := ty; wr_ttl := 60; wr_data := data |}.

Ltac c_proper := split; [repeat (apply Forall_cons; [split; [discriminate | split; [cbn; lia | repeat (apply Forall_cons; [unfold label_char; lia |]); apply Forall_nil]] |]); apply Forall_nil | cbn; lia].
Lemma c_key_name : proper_name (bs "a."). Proof. exists [[97]]. split; [c_proper | split; reflexivity]. Qed.
Lemma c_xa_proper : proper c_xa. Proof. unfold c_xa. c_proper. Qed.
Lemma c_keys_bytes : Forall (fun k => is_bytes (dk_pubkey k)) c_keys. Proof. apply Forall_cons; [bytes_in_range | apply Forall_nil]. Qed.
Lemma c_first ty labels p : FirstKey (c_sig ty labels p) c_keys (key_of "a.").
Proof. exists [], []. split; [reflexivity |]. split; [apply Forall_nil |]. split; [vm_compute; reflexivity | split; [reflexivity | split; reflexivity]]. Qed.
Lemma c_valid ty labels ws ordered pieces : Forall (fun w => wr_type w = ty) ws -> Permutation ws ordered -> InCanonicalOrder ordered ->
  Forall2 (CanonicalForm (c_sig ty labels pieces)) ordered pieces -> RfcValid echo_env (c_sig ty labels pieces) c_keys ws.
Proof.
  intros T P O F. split; [exact T |]. exists (key_of "a."), (rs_signature (c_sig ty labels pieces)), ordered.
  split; [apply c_first |]. split; [exact P |]. split; [exact O |]. split.
  - exists (wire_name [[97]]), pieces. split; [| split; [exact F | reflexivity]]. exists [[97]]. split; [c_proper | split; [reflexivity | split; reflexivity]].
  - apply (CO_rsa256 _ _ _ _ [74; 90] [3]); [reflexivity | apply (RL_short [3] [74; 90]); cbn; lia | discriminate | cbn; lia |]. apply bytes_eqb_refl.
Qed.
Lemma c_full labels pieces ty data d : 2 = labels -> CanonicalRData ty data d -> CanonicalForm (c_sig ty labels pieces) (c_rr ty data) (c_piece c_owner ty d).
Proof. intros <- C. exists c_owner, d. split; [left; split; reflexivity |]. split; [exact C | reflexivity]. Qed.
Lemma c_wild labels pieces ty data d : 1 = labels -> CanonicalRData ty data d -> CanonicalForm (c_sig ty labels pieces) (c_rr ty data) (c_piece c_star ty d).
Proof. intros <- C. exists c_star, d. split; [right; exists [[88]], [[97]]; split; [reflexivity | split; [discriminate | split; reflexivity]] |]. split; [exact C | reflexivity]. Qed.
Lemma c_legal ty datas : Forall (fun data => bytes_ok (wr_octets (c_rr ty data)) = true /\ exists d, CanonicalRData ty data d) datas -> LegalSet (map (c_rr ty) datas).
Proof.
  intros H. split.
  - rewrite Forall_map. eapply Forall_impl; [| exact H]. intros data [A B]. split; [apply is_bytes_ok; exact A |]. split; [exact c_xa_proper | exact B].
  - exists [[120]; [97]], ty. rewrite Forall_map. eapply Forall_impl; [| exact H]. intros data _. split; reflexivity.
Qed.
Ltac c_held := unfold Held; cbn [typed_rr c_sig rs_name rs_ty rs_alg rs_labels rs_orig_ttl rs_expiration rs_inception rs_key_tag rs_key_name rs_signature];
  repeat match goal with |- _ /\ _ => split | |- is_bytes _ => bytes_in_range | |- _ => in_range end.
Definition c_verify (s : rrsig) (ws : list wire_rr) : outcome verr unit :=
  match parse_rr_stream false (List.concat (map wr_octets ws)) with Ok rs => verify_rrsig echo_env false s c_keys rs | _ => Panic end.
(** A statement of C89, with some conditions on the signature and the RRset. *)
Definition WireStatement (Cond : rrsig -> list wire_rr -> Prop) : Prop :=
  forall e s keys ws, Held (RR_RRSig s) -> proper_name (rs_key_name s) -> Forall (fun k => is_bytes (dk_pubkey k)) keys -> LegalSet ws -> Cond s ws ->
  exists rs, parse_rr_stream false (List.concat (map wr_octets ws)) = Ok rs /\ (verify_rrsig e false s keys rs = Ok tt <-> RfcValid e s keys ws).
Lemma c_refute Cond ty labels pieces ws : WireStatement Cond -> Held (RR_RRSig (c_sig ty labels pieces)) -> LegalSet ws -> Cond (c_sig ty labels pieces) ws ->
  RfcValid echo_env (c_sig ty labels pieces) c_keys ws -> c_verify (c_sig ty labels pieces) ws = Err Invalid -> False.
Proof.
  intros H Hs L C R V. destruct (H echo_env (c_sig ty labels pieces) c_keys ws Hs c_key_name c_keys_bytes L C) as (rs & P & E).
  unfold c_verify in V. rewrite P in V. apply E in R. rewrite R in V. discriminate.
Qed.

(** Two addresses from a wildcard, in upper case and out of order. *)
Definition c_as : list wire_rr := map (c_rr 1) [[10; 0; 0; 2]; [10; 0; 0; 1]].
Definition c_as_sig : rrsig := c_sig 1 1 [c_piece c_star 1 [10; 0; 0; 1]; c_piece c_star 1 [10; 0; 0; 2]].
Lemma c_as_legal : LegalSet c_as.
Proof. apply c_legal. repeat (apply Forall_cons; [split; [vm_compute; reflexivity | eexists; apply CF_a; reflexivity] |]). apply Forall_nil. Qed.
Lemma c_as_valid : RfcValid echo_env c_as_sig c_keys c_as.
Proof.
  apply (c_valid 1 1 _ (map (c_rr 1) [[10; 0; 0; 1]; [10; 0; 0; 2]])).
  - repeat (apply Forall_cons; [reflexivity |]). apply Forall_nil.
  - apply perm_swap.
  - apply SSorted_cons; [apply SSorted_cons; [apply SSorted_nil | apply Forall_nil] |]. apply Forall_cons; [| apply Forall_nil].
    exists [10; 0; 0; 1], [10; 0; 0; 2]. split; [apply CF_a; reflexivity |]. split; [apply CF_a; reflexivity |]. right. do 3 apply lex_later. apply lex_here. lia.
  - repeat (apply Forall2_cons; [apply c_wild; [reflexivity | apply CF_a; reflexivity] |]). apply Forall2_nil.
Qed.
Lemma c_as_ok : c_verify c_as_sig c_as = Ok tt. Proof. vm_compute. reflexivity. Qed.
Lemma c_as_held : Held (RR_RRSig c_as_sig). Proof. unfold c_as_sig. c_held. Qed.

Ltac c_one := match goal with |- Forall _ (map (c_rr _) [_]) => cbn [map]; apply Forall_cons; [| apply Forall_nil] end.
Lemma not_sorted_one w : InCanonicalOrder [w].
Proof. apply SSorted_cons; [apply SSorted_nil | apply Forall_nil]. Qed.
Ltac c_only := match goal with |- Forall _ _ => repeat (apply Forall_cons; [intros X; discriminate X |]); apply Forall_nil end.

(** Two short strings. *)
Definition c_txt : bytes := strings [[65]; [66]].
Lemma c_txt_canon : CanonicalRData 16 c_txt c_txt.
Proof. apply CF_txt; [discriminate |]. repeat (apply Forall_cons; [cbn; lia |]). apply Forall_nil. Qed.
Lemma txt_refuted : ~ WireStatement (fun s ws => Forall LowerNext ws /\ Forall (NsecOwner s) ws /\ Orderly ws).
Proof.
  intros H. apply (c_refute _ 16 2 [c_piece c_owner 16 c_txt] (map (c_rr 16) [c_txt]) H).
  - c_held.
  - apply c_legal. apply Forall_cons; [| apply Forall_nil]. split; [vm_compute; reflexivity | eexists; exact c_txt_canon].
  - cbn [map]. split; [c_only |]. split; [c_only | left; cbn; lia].
  - apply (c_valid 16 2 _ (map (c_rr 16) [c_txt])); [apply Forall_cons; [reflexivity | apply Forall_nil] | apply Permutation_refl | apply not_sorted_one |].
    apply Forall2_cons; [apply c_full; [reflexivity | exact c_txt_canon] | apply Forall2_nil].
  - vm_compute. reflexivity.
Qed.

(** The next name is Z.a.; z.a., but of a wildcard. *)
Definition c_bits : bytes := [0; 1; 64].
Lemma c_bits_canon : canonical_bitmap c_bits.
Proof. exists [(0, [64])]. split; [| reflexivity]. apply (cf_cons 0 0 [] 64); [lia | lia | cbn; lia | lia | apply cf_nil]. Qed.
Definition c_next : bytes := wire_name [[90]; [97]] ++ c_bits.
Lemma c_next_canon : CanonicalRData 47 c_next c_next.
Proof. apply CF_nsec; [c_proper | exact c_bits_canon]. Qed.
Definition c_low : bytes := wire_name [[122]; [97]] ++ c_bits.
Lemma c_low_canon : CanonicalRData 47 c_low c_low.
Proof. apply CF_nsec; [c_proper | exact c_bits_canon]. Qed.
Lemma next_refuted : ~ WireStatement (fun s ws => Forall FullStrings ws /\ Forall (NsecOwner s) ws /\ Orderly ws).
Proof.
  intros H. apply (c_refute _ 47 2 [c_piece c_owner 47 c_next] (map (c_rr 47) [c_next]) H).
  - c_held.
  - apply c_legal. apply Forall_cons; [| apply Forall_nil]. split; [vm_compute; reflexivity | eexists; exact c_next_canon].
  - cbn [map]. split; [c_only |]. split; [| left; cbn; lia]. apply Forall_cons; [| apply Forall_nil]. intros _. left. split; reflexivity.
  - apply (c_valid 47 2 _ (map (c_rr 47) [c_next])); [apply Forall_cons; [reflexivity | apply Forall_nil] | apply Permutation_refl | apply not_sorted_one |].
    apply Forall2_cons; [apply c_full; [reflexivity | exact c_next_canon] | apply Forall2_nil].
  - vm_compute. reflexivity.
Qed.
Lemma nsec_owner_refuted : ~ WireStatement (fun s ws => Forall FullStrings ws /\ Forall LowerNext ws /\ Orderly ws).
Proof.
  intros H. apply (c_refute _ 47 1 [c_piece c_star 47 c_low] (map (c_rr 47) [c_low]) H).
  - c_held.
  - apply c_legal. apply Forall_cons; [| apply Forall_nil]. split; [vm_compute; reflexivity | eexists; exact c_low_canon].
  - cbn [map]. split; [c_only |]. split; [| left; cbn; lia]. apply Forall_cons; [| apply Forall_nil]. intros _. exists [[122]; [97]], c_bits. split; [c_proper |]. split; [reflexivity |]. split; [exact c_bits_canon | reflexivity].
  - apply (c_valid 47 1 _ (map (c_rr 47) [c_low])); [apply Forall_cons; [reflexivity | apply Forall_nil] | apply Permutation_refl | apply not_sorted_one |].
    apply Forall2_cons; [apply c_wild; [reflexivity | exact c_low_canon] | apply Forall2_nil].
  - vm_compute. reflexivity.
Qed.

(** b. comes before aa. in canonical order. *)
Definition c_b : bytes := wire_name [[98]].
Definition c_aa : bytes := wire_name [[97; 97]].
Lemma c_b_canon : CanonicalRData 2 c_b c_b. Proof. apply (CF_name 2 [[98]]); [cbn; auto | c_proper]. Qed.
Lemma c_aa_canon : CanonicalRData 2 c_aa c_aa. Proof. apply (CF_name 2 [[97; 97]]); [cbn; auto | c_proper]. Qed.
Lemma ns_order_refuted : ~ WireStatement (fun s ws => Forall FullStrings ws /\ Forall LowerNext ws /\ Forall (NsecOwner s) ws).
Proof.
  intros H. apply (c_refute _ 2 2 [c_piece c_owner 2 c_b; c_piece c_owner 2 c_aa] (map (c_rr 2) [c_b; c_aa]) H).
  - c_held.
  - apply c_legal. apply Forall_cons; [| apply Forall_cons; [| apply Forall_nil]]; (split; [vm_compute; reflexivity | eexists]); [exact c_b_canon | exact c_aa_canon].
  - cbn [map]. split; [c_only |]. split; c_only.
  - apply (c_valid 2 2 _ (map (c_rr 2) [c_b; c_aa])); [repeat (apply Forall_cons; [reflexivity |]); apply Forall_nil | apply Permutation_refl | |].
    + apply SSorted_cons; [apply SSorted_cons; [apply SSorted_nil | apply Forall_nil] |]. apply Forall_cons; [| apply Forall_nil].
      exists c_b, c_aa. split; [exact c_b_canon |]. split; [exact c_aa_canon |]. right. apply lex_here. reflexivity.
    + apply Forall2_cons; [apply c_full; [reflexivity | exact c_b_canon] |]. apply Forall2_cons; [apply c_full; [reflexivity | exact c_aa_canon] | apply Forall2_nil].
  - vm_compute. reflexivity.
Qed.

(** Names of one shape: NS2.a. and ns1.a. *)
Definition c_ns (a b c : N) : list bytes := [[a; b; c]; [97]].
Definition c_nss : list wire_rr := map (c_rr 2) [wire_name (c_ns 78 83 50); wire_name (c_ns 110 115 49)].
Definition c_nss_sig : rrsig := c_sig 2 2 [c_piece c_owner 2 (wire_name (c_ns 110 115 49)); c_piece c_owner 2 (wire_name (c_ns 110 115 50))].
Lemma c_ns_canon a b c : proper (c_ns a b c) -> CanonicalRData 2 (wire_name (c_ns a b c)) (wire_name (map lower (c_ns a b c))).
Proof. intros P. apply (CF_name 2 (c_ns a b c)); [cbn; auto | exact P]. Qed.
Lemma c_nss_proper : proper (c_ns 78 83 50) /\ proper (c_ns 110 115 49).
Proof. split; c_proper. Qed.
Lemma c_nss_legal : LegalSet c_nss.
Proof. destruct c_nss_proper as [P1 P2]. apply c_legal. apply Forall_cons; [| apply Forall_cons; [| apply Forall_nil]]; (split; [vm_compute; reflexivity | eexists; apply c_ns_canon; assumption]). Qed.
Lemma c_nss_orderly : Orderly c_nss.
Proof.
  destruct c_nss_proper as [P1 P2]. right. right. intros w w' I I'.
  assert (K : forall w ls, In w c_nss -> proper ls -> wr_data w = wire_name ls -> map (@List.length N) (map lower ls) = [3; 1]%nat).
  { intros v ls J P E. assert (ls = c_ns 78 83 50 \/ ls = c_ns 110 115 49) as [-> | ->]; [| reflexivity | reflexivity].
    destruct J as [<- | [<- | []]]; cbn [c_rr wr_data] in E; [left | right]; symmetry in E; apply wire_dotted_eq in E; try assumption;
      (eapply labelsof_inj; [apply proper_labels; exact P |]; rewrite E; apply proper_labels; assumption). }
  split; [destruct I as [<- | [<- | []]]; left; reflexivity |]. intros ls ls' P P' E E'. apply same_shape. rewrite (K w ls I P E), (K w' ls' I' P' E'). reflexivity.
Qed.
Lemma c_nss_example : Held (RR_RRSig c_nss_sig) /\ LegalSet c_nss /\ Orderly c_nss /\ RfcValid echo_env c_nss_sig c_keys c_nss /\ c_verify c_nss_sig c_nss = Ok tt.
Proof.
  assert (H : Held (RR_RRSig c_nss_sig)) by (unfold c_nss_sig; c_held). assert (V : c_verify c_nss_sig c_nss = Ok tt) by (vm_compute; reflexivity).
  split; [exact H |]. split; [exact c_nss_legal |]. split; [exact c_nss_orderly |]. split; [| exact V].
  destruct (wire_checked false echo_env c_nss_sig c_keys c_nss H c_key_name c_keys_bytes c_nss_legal) as (rs & P & E); [c_only | c_only | c_only | exact c_nss_orderly |].
  apply E. unfold c_verify in V. rewrite P in V. exact V.
Qed.
Lemma c_names_orders : sort_by rr_cmp [w_ns "ns2.a."; w_ns "ns1.a."] = [w_ns "ns1.a."; w_ns "ns2.a."] /\ SameOrder [[110; 115; 49]; [97]] [[110; 115; 50]; [97]] /\
  ~ SameOrder [[97; 97]] [[98]].
Proof.
  split; [vm_compute; reflexivity |]. split; [apply same_shape; reflexivity |]. intros H. assert (X : lex N.lt (dotted [[97; 97]]) (dotted [[98]])) by (vm_compute dotted; apply lex_here; reflexivity).
  apply H in X. change (lex N.lt [2; 97; 97; 0] [1; 98; 0]) in X. inversion X; lia.
Qed.
