(** What the parser returns is within the ranges of the Rust types, and (from a stream, hence without
    name compression) small enough to be written again. *)
From Verif Require Import Base NameM WireM RRM SerM ValM BaseP NameSpec WireSpec BitmapSpec RecSpec
  NameP WireP BitmapP RecP RecP2 ValSpec.
From Coq Require Import Arith.
Local Open Scope N_scope.

Lemma accepted_held t n : acceptable t -> n = lower t -> name_try_from n = Some n.
Proof. intros H ->. eapply name_reparse. apply name_try_from_spec. split; [eassumption|reflexivity]. Qed.
Lemma namein_held wire b n : NameIn wire b n -> name_try_from n = Some n.
Proof. intros (t & _ & H1 & H2). eapply accepted_held; eauto. Qed.
Lemma plain_held b n : NamePlain b n -> name_try_from n = Some n.
Proof. intros (ls & _ & _ & H1 & H2). eapply accepted_held; eauto. Qed.

Lemma u16_bytes n : is_bytes (u16 n) -> is_u16 n.
Proof.
  intros H. inversion H as [|? ? H1 H2]; subst. inversion H2 as [|? ? H3 H4]; subst. unfold is_u16, is_u8 in *.
  pose proof (N.div_mod n 256 ltac:(discriminate)). revert H1 H3 H0. generalize (n / 256), (n mod 256). lia.
Qed.
Lemma u32_bytes n : is_bytes (u32 n) -> is_u32 n.
Proof.
  intros H. inversion H as [|? ? H1 H2]; subst. unfold is_u32, is_u8 in *.
  pose proof (N.div_mod n 16777216 ltac:(discriminate)). pose proof (N.mod_lt n 16777216 ltac:(discriminate)).
  revert H1 H0 H3. generalize (n / 16777216), (n mod 16777216). lia.
Qed.

Lemma is_bytes_app a b : is_bytes (a ++ b) <-> is_bytes a /\ is_bytes b.
Proof. apply Forall_app. Qed.
Lemma is_bytes_cons x b : is_bytes (x :: b) <-> is_u8 x /\ is_bytes b.
Proof. split; [intros H; inversion H; auto|intros []; constructor; auto]. Qed.

Lemma octet_at_byte bl i init : is_bytes (enc_blocks bl) -> is_u8 init -> is_u8 (octet_at bl i init).
Proof.
  revert init. induction bl as [|wb bl IH]; intros init H Hi; cbn [octet_at]; [exact Hi|].
  change (enc_blocks (wb :: bl)) with (fst wb :: N.of_nat (List.length (snd wb)) :: snd wb ++ enc_blocks bl) in H.
  apply is_bytes_cons in H as [_ H]. apply is_bytes_cons in H as [_ H]. apply is_bytes_app in H as [H1 H2].
  apply IH; auto. destruct (covers wb i); [|exact Hi].
  destruct (nth_in_or_default (i - 32 * N.to_nat (fst wb)) (snd wb) 0) as [G|G]; [|rewrite G; reflexivity].
  unfold is_bytes in H1. rewrite Forall_forall in H1. apply H1, G.
Qed.
Lemma bitmap_held bits mask : BitmapEnc bits mask -> is_bytes bits -> is_mask mask.
Proof.
  intros (bl & -> & _ & HL & HN) Hb. split; [exact HL|]. apply Forall_forall. intros x Hx.
  apply (In_nth _ _ 0) in Hx as (i & Hi & <-). rewrite HN by lia. apply octet_at_byte; [exact Hb|reflexivity].
Qed.

Lemma strs_bytes strs : is_bytes (flat_map (fun s => length_of s :: s) strs) ->
  is_bytes (concat strs) /\ Forall (fun s => length_of s <= 255) strs.
Proof.
  induction strs as [|s strs IH]; cbn [flat_map concat]; intros H; [split; constructor|].
  cbn [app] in H. apply is_bytes_cons in H as [H0 H]. apply is_bytes_app in H as [H1 H2]. destruct (IH H2). split.
  - apply is_bytes_app. auto.
  - constructor; auto. unfold is_u8 in H0. lia.
Qed.

Lemma rdata_held (Nm : list N -> list N -> Prop) lax ty o r data : (forall b n, Nm b n -> name_try_from n = Some n) ->
  RData Nm lax ty o r data -> name_try_from o = Some o -> is_bytes data -> Held r.
Proof.
  intros HN H Ho Hb. unfold Held.
  destruct H; cbn [typed_rr a_name a_addr a6_name a6_addr nr_name nr_server tx_name tx_data tl_name tl_usage tl_selector tl_data_ty
    tl_data cn_name cn_canonical dn_name dn_delegation dk_name dk_flags dk_protocol dk_alg dk_pubkey ds_name ds_key_tag ds_alg
    ds_digest_type ds_digest rs_name rs_ty rs_alg rs_labels rs_orig_ttl rs_expiration rs_inception rs_key_tag rs_key_name rs_signature
    ns_name ns_next ns_types n3_name n3_algo n3_flags n3_iters n3_salt n3_next_hash n3_types];
  repeat match goal with
  | G : is_bytes (_ ++ _) |- _ => apply is_bytes_app in G as [? G]
  | G : is_bytes (_ :: _) |- _ => apply is_bytes_cons in G as [? G]
  end;
  repeat match goal with
  | |- _ /\ _ => split
  end; eauto using u16_bytes, u32_bytes, bitmap_held; try (apply strs_bytes; assumption).
Qed.

Lemma record_held wire lax rec r ttl : RecordEnc (NameIn wire) lax rec r ttl -> is_bytes rec -> Held r /\ is_u32 ttl.
Proof.
  intros H Hb. destruct H. repeat (apply is_bytes_app in Hb as [? Hb]). split; [|apply u32_bytes; auto].
  eapply rdata_held; eauto using namein_held.
Qed.

Lemma stream_held lax inp rs : StreamEnc NamePlain lax inp rs -> is_bytes inp -> Forall Held rs.
Proof.
  induction 1; intros Hb; constructor; apply is_bytes_app in Hb as [H1 H2]; auto.
  destruct H. repeat (apply is_bytes_app in H1 as [? H1]). eapply rdata_held; eauto using plain_held.
Qed.

Lemma parsed_held dbg inp rs : is_bytes inp -> parse_rr_stream dbg inp = Ok rs -> Forall Held rs.
Proof.
  intros Hb H. apply parse_stream_spec in H; [|apply is_bytes_ok; auto]. eapply stream_held; eauto.
Qed.

(** ** Sizes *)
Lemma dots_octets ls : List.length (dots ls) = List.length (wire_labels ls).
Proof.
  induction ls as [|l ls IH]; [reflexivity|]. rewrite dots_cons. cbn [wire_labels flat_map].
  fold (wire_labels ls). cbn [app List.length]. rewrite !app_length. cbn [List.length]. lia.
Qed.
Lemma plain_octets b n : NamePlain b n -> name_octets n = length_of b.
Proof.
  intros (ls & Hl & -> & _ & ->). unfold name_octets, length_of, wire_name. rewrite app_length. cbn [List.length].
  rewrite <- dots_octets, lower_length. destruct ls as [|l ls].
  - cbn. destruct (list_eq_dec N.eq_dec [46] [46]); [reflexivity|congruence].
  - assert (HL : (List.length (dots (l :: ls)) >= 2)%nat).
    { inversion Hl; subst. rewrite dots_cons, app_length. cbn [List.length]. lia. }
    destruct (dots (l :: ls)) eqn:E; [cbn in HL; lia|]. cbn [text_or_root].
    destruct (list_eq_dec N.eq_dec (lower (n :: l0)) [46]) as [G|G].
    + apply (f_equal (@List.length N)) in G. rewrite lower_length in G. cbn in G, HL. lia.
    + lia.
Qed.

Lemma strs_octets strs : Forall (fun s => length_of s <= 255) strs ->
  length_of (flat_map (fun s => length_of s :: s) strs) = N.of_nat (List.length strs) + length_of (concat strs)
  /\ length_of (concat strs) <= 255 * N.of_nat (List.length strs).
Proof.
  induction 1 as [|s strs H H' [IH1 IH2]]; [split; reflexivity|]. unfold length_of in *. cbn [flat_map concat].
  rewrite !app_length. cbn [List.length]. split; lia.
Qed.

Lemma rdata_fits lax ty o r data : RData NamePlain lax ty o r data -> is_bytes data -> length_of data <= 65535 -> fits_rr r.
Proof.
  intros H Hb HL. destruct H; cbn [fits_rr tx_data tl_data dk_pubkey ds_digest rs_key_name rs_signature n3_salt n3_next_hash]; auto.
  - apply strs_bytes in Hb as [_ Hs]. destruct (strs_octets strs Hs) as [E1 E2]. rewrite E1 in HL.
    assert ((length_of (concat strs) + 254) / 255 < N.of_nat (List.length strs) + 1).
    { apply N.div_lt_upper_bound; [discriminate|]. lia. }
    lia.
  - unfold length_of in *. cbn [List.length] in HL. lia.
  - unfold length_of in *. cbn [u16 app List.length] in HL. lia.
  - unfold length_of in *. cbn [u16 app List.length] in HL. lia.
  - rewrite (plain_octets b n) by assumption. unfold length_of in *. cbn [u16 u32 app List.length] in HL.
    rewrite app_length in HL. lia.
  - repeat match goal with
    | G : is_bytes (_ ++ _) |- _ => apply is_bytes_app in G as [? G]
    | G : is_bytes (_ :: _) |- _ => apply is_bytes_cons in G as [? G]
    end. unfold is_u8 in *. lia.
Qed.

Lemma u16_length_bound n x : is_bytes (u16 n ++ x) -> n <= 65535.
Proof. intros H. apply is_bytes_app in H as [H _]. apply u16_bytes in H. unfold is_u16 in H. lia. Qed.

Lemma stream_fits lax inp rs : StreamEnc NamePlain lax inp rs -> is_bytes inp -> Forall fits_rr rs.
Proof.
  induction 1; intros Hb; constructor; apply is_bytes_app in Hb as [H1 H2]; auto.
  destruct H. do 4 (apply is_bytes_app in H1 as [? H1]).
  eapply rdata_fits; eauto; [apply is_bytes_app in H1 as []; auto|]. eapply u16_length_bound; eauto.
Qed.
Lemma parsed_fits dbg inp rs : is_bytes inp -> parse_rr_stream dbg inp = Ok rs -> Forall fits_rr rs.
Proof.
  intros Hb H. apply parse_stream_spec in H; [|apply is_bytes_ok; auto]. eapply stream_fits; eauto.
Qed.

Lemma held_name_len n : name_try_from n = Some n -> name_len n = name_octets n /\ name_octets n <= 256.
Proof.
  intros H. apply name_try_from_spec in H as [(ls & H1 & H2 & H3 & H4) H5]. unfold name_octets.
  destruct (list_eq_dec N.eq_dec n [46]) as [E|E].
  - rewrite E. cbn. lia.
  - subst n. rewrite name_len_wire_gen; auto.
    2:{ intros ->. apply E. reflexivity. }
    unfold len, length_of, wire_name. rewrite app_length, <- dots_octets. cbn [List.length]. lia.
Qed.

Lemma fits_no_overflow r : Held r -> fits_rr r -> write_data_overflows r = false.
Proof.
  intros HH HF. destruct r as [r|r|r|r|r|r|r|r|r|r|r|r]; try reflexivity; cbn [Held typed_rr fits_rr write_data_overflows] in *; unfold Held in HH; cbn [typed_rr] in HH.
  - apply N.ltb_ge. destruct HH as (_ & _ & _ & _ & _ & _ & _ & _ & Hk & _). destruct (held_name_len _ Hk) as [-> _].
    rewrite as_u16_small; unfold length_of, len in *; lia.
  - apply N.ltb_ge. destruct HH as (_ & Hk & Hm & _). destruct (held_name_len _ Hk) as [-> ?].
    destruct (bitmap_len_ok _ Hm) as [-> ?]. lia.
  - apply N.ltb_ge. destruct HH as (_ & _ & _ & _ & _ & _ & Hm & _).
    destruct (bitmap_len_ok _ Hm) as [-> ?]. destruct HF. unfold length_of in *. rewrite !as_u16_small; unfold len in *; lia.
Qed.
