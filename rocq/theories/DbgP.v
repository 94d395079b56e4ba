(** A debug build that does not panic computes what a release build computes. *)
From Verif Require Import Base NameM WireM RRM SerM ValM QueryM WasmM JsonM.
Local Open Scope N_scope.

Definition agree {E A} (d r : outcome E A) : Prop := d = Panic \/ d = r.

Lemma agree_refl {E A} (o : outcome E A) : agree o o.
Proof. right. reflexivity. Qed.
Lemma agree_panic {E A} (o : outcome E A) : agree Panic o.
Proof. left. reflexivity. Qed.
Lemma agree_bind {E A B} (d r : outcome E A) (f g : A -> outcome E B) :
  agree d r -> (forall a, agree (f a) (g a)) -> agree (obind d f) (obind r g).
Proof. intros [->| ->] H; [left; reflexivity|]. destruct r; cbn; auto; apply agree_refl. Qed.
Lemma agree_if {E A} (b : bool) (o : outcome E A) : agree (if true && b then Panic else o) (if false && b then Panic else o).
Proof. destruct b; cbn; [apply agree_panic | apply agree_refl]. Qed.
Lemma agree_out {E A} (d r : outcome E A) : agree d r -> d <> Panic -> r = d.
Proof. intros [H|H] N; [contradiction | symmetry; exact H]. Qed.

Ltac ag := first [apply agree_refl | apply agree_panic | apply agree_if].

(** The parser. *)
Lemma single_agree d w : agree (read_single_name true d w) (read_single_name false d w).
Proof. unfold read_single_name. apply agree_bind; [ag|]. intros [n d']. ag. Qed.
Lemma data_agree ty nm d w : agree (read_data true ty nm d w) (read_data false ty nm d w).
Proof.
  unfold read_data.
  repeat match goal with
  | |- agree (if ?b then _ else _) (if ?b then _ else _) => destruct b
  end; try ag.
  all: apply agree_bind; [|intros; ag].
  all: unfold ns_read, cname_read, dname_read; apply agree_bind; [apply single_agree | intros; ag].
Qed.
Lemma packet_agree i w : agree (parse_wire_packet_rr true i w) (parse_wire_packet_rr false i w).
Proof.
  unfold parse_wire_packet_rr.
  repeat match goal with
  | |- agree (obind ?m _) (obind ?m _) => apply agree_bind; [ag|]
  | |- forall p : _ * _, _ => intros [? ?]
  | |- forall p, _ => intro
  | |- agree (if ?b then _ else _) (if ?b then _ else _) => destruct b; try ag
  | |- agree (obind (read_data _ _ _ _ _) _) _ => apply agree_bind; [apply data_agree|]
  end; ag.
Qed.
Lemma rr_agree i : agree (parse_rr true i) (parse_rr false i).
Proof. unfold parse_rr. apply agree_bind; [apply packet_agree|]. intros [[r t] rest]. ag. Qed.
Lemma stream_loop_agree n i l : agree (parse_stream_loop true n i l) (parse_stream_loop false n i l).
Proof.
  revert i l. induction n as [|n IH]; intros i l; cbn [parse_stream_loop]; destruct i; try ag.
  apply agree_bind; [apply rr_agree|]. intros [r rest]. apply IH.
Qed.
Lemma stream_agree i : agree (parse_rr_stream true i) (parse_rr_stream false i).
Proof. apply stream_loop_agree. Qed.

(** The validator. *)
Lemma record_agree s r : agree (signed_record true s r) (signed_record false s r).
Proof.
  unfold signed_record. apply agree_bind; [|intros; ag].
  destruct (_ && _); [|ag]. destruct (_ <? _); [ag|]. destruct (trailing_n_labels _ _); ag.
Qed.
Lemma records_agree s rs : agree (signed_records true s rs) (signed_records false s rs).
Proof.
  induction rs as [|r t IH]; cbn [signed_records]; [ag|].
  apply agree_bind; [apply record_agree|]. intros a. apply agree_bind; [exact IH|]. intros; ag.
Qed.
Lemma rrsig_agree e s ks rs : agree (verify_rrsig e true s ks rs) (verify_rrsig e false s ks rs).
Proof.
  unfold verify_rrsig. destruct (existsb _ _); [ag|].
  induction ks as [|k t IH]; cbn [verify_with_keys]; [ag|]. destruct (key_usable s k); [|exact IH].
  apply agree_bind; [apply records_agree|]. intros; ag.
Qed.
Lemma dnskey_sigs_agree e sigs ks rs b : agree (verify_dnskey_sigs e true sigs ks rs b) (verify_dnskey_sigs e false sigs ks rs b).
Proof.
  revert b. induction sigs as [|s t IH]; intro b; cbn [verify_dnskey_sigs]; [ag|].
  destruct (rrsig_agree e s ks (map RR_DnsKey rs)) as [->| ->]; [ag|].
  destruct (verify_rrsig _ _ _ _ _) as [|[]| |]; try ag. apply IH.
Qed.
Lemma dnskeys_agree e sigs ds rs : agree (verify_dnskeys e true sigs ds rs) (verify_dnskeys e false sigs ds rs).
Proof.
  unfold verify_dnskeys. destruct (is_nil ds); [ag|]. destruct (negb _); [ag|]. apply dnskey_sigs_agree.
Qed.
Lemma need_agree s : agree (wildcard_need true s) (wildcard_need false s).
Proof. unfold wildcard_need. destruct (_ && _); [|ag]. destruct (rs_ty s =? T_NSEC3); [ag|]. ag. Qed.
Lemma sig_step_agree e inp z s st : agree (sig_step e true inp z s st) (sig_step e false inp z s st).
Proof.
  unfold sig_step. destruct (negb _); [ag|].
  destruct (rrsig_agree e s (zone_dnskeys inp z) (covered inp s)) as [->| ->]; [ag|].
  destruct (verify_rrsig _ _ _ _ _) as [|[]| |]; try ag. cbn zeta.
  destruct (_ || _); [ag|]. destruct (rs_ty s =? T_DS); [ag|].
  apply agree_bind; [apply need_agree | intros; ag].
Qed.
Lemma sigs_loop_agree e inp z sigs st : agree (sigs_loop e true inp z sigs st) (sigs_loop e false inp z sigs st).
Proof.
  revert st. induction sigs as [|s t IH]; intro st; cbn [sigs_loop]; [ag|].
  apply agree_bind; [apply sig_step_agree | exact IH].
Qed.
Lemma zone_step_agree e inp st : agree (zone_step e true inp st) (zone_step e false inp st).
Proof.
  unfold zone_step. destruct (pop_zone st) as [st' nd].
  destruct (if bytes_eqb _ _ then _ else _); [|ag].
  apply agree_bind; [apply dnskeys_agree|]. intros s. apply sigs_loop_agree.
Qed.
Lemma zone_loop_agree e inp n st : agree (zone_loop e true inp n st) (zone_loop e false inp n st).
Proof.
  revert st. induction n as [|n IH]; intro st; cbn [zone_loop]; destruct (_ || _); try ag.
  apply agree_bind; [apply zone_step_agree | exact IH].
Qed.
Lemma verify_agree e n inp : agree (verify_rr_stream e true n inp) (verify_rr_stream e false n inp).
Proof. unfold verify_rr_stream. apply agree_bind; [apply zone_loop_agree | intros; ag]. Qed.
Lemma verify_release e dbg n inp v : verify_rr_stream e dbg n inp = Ok v -> verify_rr_stream e false n inp = Ok v.
Proof. destruct dbg; [|auto]. intros H. destruct (verify_agree e n inp) as [K|K]; congruence. Qed.

(** Functions that return a state as well. *)
Definition agree2 {E A S} (d r : outcome E A * S) : Prop := fst d = Panic \/ d = r.
Ltac ag2 := first [right; reflexivity | left; reflexivity].

Lemma section_agree resp keep n read ttl hs :
  agree2 (read_section true resp keep n read ttl hs) (read_section false resp keep n read ttl hs).
Proof.
  revert read ttl hs. induction n as [|n IH]; intros read ttl hs; cbn [read_section]; [ag2|].
  destruct (packet_agree read resp) as [->| ->]; [ag2|].
  destruct (parse_wire_packet_rr false read resp) as [[[r t] rest]|x| |]; try ag2.
  destruct (keep r); [|apply IH].
  unfold emit. cbn [andb]. destruct (write_data_overflows r); [ag2 | apply IH].
Qed.
Lemma handle_agree resp hs : agree2 (handle_response true resp hs) (handle_response false resp hs).
Proof.
  unfold handle_response. destruct (read_header resp) as [[[a u] read]|x| |]; try ag2.
  destruct (section_agree resp (fun _ => true) (N.to_nat a) read (2 ^ 32 - 1) hs) as [H| ->].
  - destruct (read_section true _ _ _ _ _ _) as [o h]. cbn in H. subst o. ag2.
  - destruct (read_section false _ _ _ _ _ _) as [[[t rest]|x| |] h]; try ag2.
    destruct (section_agree resp authority_kept (N.to_nat u) rest t h) as [H| ->]; [|ag2].
    destruct (read_section true _ _ _ _ _ _) as [o h']. cbn in H. subst o. ag2.
Qed.
Lemma process_agree b resp : agree2 (process_response true b resp) (process_response false b resp).
Proof.
  unfold process_response. destruct (pb_pending b =? 0); [ag2|].
  destruct (handle_agree resp (pb_proof b, [])) as [H| ->]; [|ag2].
  destruct (handle_response true resp (pb_proof b, [])) as [o [p ns]]. cbn in H. subst o. ag2.
Qed.
Lemma drive_agree n b segs sent : agree2 (drive true n b segs sent) (drive false n b segs sent).
Proof.
  revert b segs sent. induction n as [|n IH]; intros b segs sent; cbn [drive]; destruct (awaiting_responses b); try ag2.
  destruct (read_response segs) as [[q segs']|]; [|ag2].
  destruct (process_agree b (qb_deref q)) as [H| ->].
  - destruct (process_response true b (qb_deref q)) as [o b']. cbn in H. subst o. ag2.
  - destruct (process_response false b (qb_deref q)) as [[qs|x| |] b']; try ag2. apply IH.
Qed.
Lemma build_agree n d ty segs : agree2 (build_proof true n d ty segs) (build_proof false n d ty segs).
Proof. unfold build_proof. destruct (builder_new d ty) as [[b q]|x| |]; try ag2. apply drive_agree. Qed.

(** The WASM interface. *)
Lemma query_response_agree w resp : agree (process_query_response true w resp) (process_query_response false w resp).
Proof.
  unfold process_query_response. destruct (len resp <? 65535); [|ag]. cbn zeta.
  match goal with |- context [process_response true ?b ?r] => destruct (process_agree b r) as [H| ->]; [|ag];
    destruct (process_response true b r) as [o b'] end. cbn in H. subst o. ag.
Qed.
Lemma byte_stream_agree e n s : agree (verify_byte_stream e true n s) (verify_byte_stream e false n s).
Proof.
  unfold verify_byte_stream. destruct (stream_agree s) as [->| ->]; [ag|].
  destruct (parse_rr_stream false s) as [rs|x| |]; try ag.
  destruct (verify_agree e n rs) as [->| ->]; ag.
Qed.

Lemma parse_same i : parse_rr_stream true i <> Panic -> parse_rr_stream false i = parse_rr_stream true i.
Proof. apply agree_out, stream_agree. Qed.
Lemma verify_same e n inp : verify_rr_stream e true n inp <> Panic -> verify_rr_stream e false n inp = verify_rr_stream e true n inp.
Proof. apply agree_out, verify_agree. Qed.
Lemma respond_same b resp : fst (process_response true b resp) <> Panic -> process_response false b resp = process_response true b resp.
Proof. intros H. destruct (process_agree b resp) as [K|K]; [contradiction | symmetry; exact K]. Qed.
Lemma build_same n d ty segs : fst (build_proof true n d ty segs) <> Panic -> build_proof false n d ty segs = build_proof true n d ty segs.
Proof. intros H. destruct (build_agree n d ty segs) as [K|K]; [contradiction | symmetry; exact K]. Qed.
Lemma wasm_same e n s w resp :
  (verify_byte_stream e true n s <> Panic -> verify_byte_stream e false n s = verify_byte_stream e true n s) /\
  (process_query_response true w resp <> Panic -> process_query_response false w resp = process_query_response true w resp).
Proof. split; apply agree_out; [apply byte_stream_agree | apply query_response_agree]. Qed.
