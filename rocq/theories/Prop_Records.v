(** Properties C07-C10 and C13: the record codec. *)
From Verif Require Import Base NameM WireM RRM SerM NameSpec WireSpec BitmapSpec RecSpec
  NameP WireP BitmapP RecP RecP2 RecP3 RecW.
From Coq Require Import String.
Local Open Scope N_scope.

(** C07. For every well-formed record ([wf_rr]: Rust field ranges, names without empty labels, RDATA
    within its length fields, TXT data not empty). *)
Theorem C07_record_roundtrip_partial : forall dbg wire r ttl rest, wf_rr r -> ttl < 4294967296 ->
  parse_wire_packet_rr dbg (write_rr r ttl ++ rest) wire = Ok (r, ttl, rest).
Proof. exact write_parse_rr. Qed.
Print Assumptions C07_record_roundtrip_partial.
(** Missing: empty TXT data. The writer announces RDLENGTH 0 but emits a zero byte. *)
Theorem C07_empty_txt_refuted : ~ (forall r ttl rest,
  typed_rr proper_name r -> fits_rr r -> ttl < 4294967296 ->
  parse_wire_packet_rr false (write_rr r ttl ++ rest) [] = Ok (r, ttl, rest)).
Proof. exact empty_txt_roundtrip_false. Qed.
Print Assumptions C07_empty_txt_refuted.
(** ... and names with an empty label, which [Name] accepts. *)
Theorem C07_empty_label_refuted : ~ (forall r ttl rest,
  typed_rr (fun n => name_try_from n = Some n) r -> fits_rr r -> nonempty_txt r -> ttl < 4294967296 ->
  parse_wire_packet_rr false (write_rr r ttl ++ rest) [] = Ok (r, ttl, rest)).
Proof. exact empty_label_roundtrip_false. Qed.
Print Assumptions C07_empty_label_refuted.

Lemma example_name : proper_name (bs "a.example.").
Proof.
  exists [bs "a"; bs "example"]. split; [|split; reflexivity].
  split; [|cbn; lia]. repeat constructor; try discriminate; cbn; try lia; discriminate.
Qed.
Definition example_txt := RR_Txt {| tx_name := bs "a.example."; tx_data := repeat 120 300 |}.
Example C07_example : wf_rr example_txt /\
  parse_wire_packet_rr true (write_rr example_txt 3600 ++ [1; 2]) [] = Ok (example_txt, 3600, [1; 2]).
Proof.
  split; [|vm_compute; reflexivity]. split; [|split; [vm_compute; discriminate|discriminate]].
  split; [exact example_name|]. apply Forall_forall. intros x H. apply repeat_spec in H. subst. reflexivity.
Qed.

(** C08. *)
Theorem C08_stream_roundtrip_partial : forall dbg l,
  Forall (fun rt => wf_rr (fst rt) /\ snd rt < 4294967296) l ->
  parse_rr_stream dbg (flat_map (fun rt => write_rr (fst rt) (snd rt)) l) = Ok (map fst l).
Proof. exact write_parse_stream. Qed.
Print Assumptions C08_stream_roundtrip_partial.
(** Cutting at a record boundary gives the records before the cut; anywhere else, an error. *)
Theorem C08_truncation_detected_partial : forall dbg l,
  Forall (fun rt => wf_rr (fst rt) /\ snd rt < 4294967296) l ->
  forall p q, p ++ q = flat_map (fun rt => write_rr (fst rt) (snd rt)) l ->
  (exists k, p = flat_map (fun rt => write_rr (fst rt) (snd rt)) (firstn k l)
             /\ parse_rr_stream dbg p = Ok (map fst (firstn k l)))
  \/ parse_rr_stream dbg p = Err tt.
Proof. exact write_truncate. Qed.
Print Assumptions C08_truncation_detected_partial.
(** Missing: empty TXT records. One inside a stream desynchronises it: here the stray byte makes the
    parser see a root-owned record and fail. *)
Theorem C08_empty_txt_refuted : ~ (forall l,
  Forall (fun rt => typed_rr proper_name (fst rt) /\ fits_rr (fst rt) /\ snd rt < 4294967296) l ->
  parse_rr_stream false (flat_map (fun rt => write_rr (fst rt) (snd rt)) l) = Ok (map fst l)).
Proof. exact empty_txt_stream_false. Qed.
Print Assumptions C08_empty_txt_refuted.
Example C08_example :
  Forall (fun rt => wf_rr (fst rt) /\ snd rt < 4294967296) [(example_txt, 5); (example_txt, 6)] /\
  parse_rr_stream false (firstn 100 (write_rr example_txt 5)) = Err tt.
Proof.
  split; [|vm_compute; reflexivity].
  pose proof (proj1 C07_example) as H.
  constructor; [exact (conj H eq_refl)|constructor; [exact (conj H eq_refl)|constructor]].
Qed.

(** C09. The grammar is [RecSpec.StreamEnc] over uncompressed names; its flag says whether bytes after
    the name in NS, CNAME and DNAME RDATA are tolerated: they are exactly in release builds. *)
Theorem C09_parse_accepts_exactly_partial : forall dbg inp rrs, is_bytes inp ->
  (parse_rr_stream dbg inp = Ok rrs <-> StreamEnc NamePlain (negb dbg) inp rrs).
Proof. exact (fun dbg inp rrs H => parse_stream_spec dbg inp rrs (proj1 (is_bytes_ok _) H)). Qed.
Print Assumptions C09_parse_accepts_exactly_partial.
(** Hence the strict grammar (no trailing bytes) is not exact: release builds accept this NS record. *)
Theorem C09_strict_refuted : ~ (forall inp rrs, is_bytes inp ->
  (parse_rr_stream false inp = Ok rrs <-> StreamEnc NamePlain false inp rrs)).
Proof. exact strict_grammar_false. Qed.
Print Assumptions C09_strict_refuted.
Example C09_example : StreamEnc NamePlain true ns_trailing [RR_NS {| nr_name := [46]; nr_server := bs "a." |}].
Proof. apply (parse_stream_spec false); reflexivity. Qed.

(** C10. Parsing always terminates; it panics on exactly the streams [BadStream]: after records which
    parse, one whose NSEC/NSEC3 bitmap has a block beyond type 65535 or (debug builds only) one of
    type NS/CNAME/DNAME with trailing RDATA. *)
Theorem C10_always_terminates : forall dbg inp, is_bytes inp -> parse_rr_stream dbg inp <> Loop.
Proof. exact (fun dbg inp H => proj2 (parse_stream_panic dbg inp (proj1 (is_bytes_ok _) H))). Qed.
Print Assumptions C10_always_terminates.
Theorem C10_panics_exactly_partial : forall dbg inp, is_bytes inp ->
  (parse_rr_stream dbg inp = Panic <-> BadStream NamePlain (negb dbg) dbg inp).
Proof. exact (fun dbg inp H => proj1 (parse_stream_panic dbg inp (proj1 (is_bytes_ok _) H))). Qed.
Print Assumptions C10_panics_exactly_partial.
(** The full claim fails in every build: an NSEC record with window 255, length 33. *)
Theorem C10_never_panics_refuted : forall dbg,
  ~ (forall inp, is_bytes inp -> parse_rr_stream dbg inp <> Panic).
Proof. exact never_panics_false. Qed.
Print Assumptions C10_never_panics_refuted.
Example C10_example : parse_rr_stream false nsec_overlong = Panic /\ parse_rr_stream true ns_trailing = Panic
  /\ parse_rr_stream false [1; 97; 0; 0; 1] = Err tt.
Proof. vm_compute. auto. Qed.

(** C13. A record whose RDATA is canonical (lower-case uncompressed names, minimal bitmap, TXT strings
    filled to 255 bytes; no condition for A, AAAA, TLSA, DNSKEY, DS) is re-serialised with the RDATA it
    was parsed from, and byte for byte if its owner is canonical too. *)
Theorem C13_rdata_preserved_partial : forall dbg nb owner ty ttl data rest r,
  let rec := nb ++ u16 ty ++ u16 1 ++ u32 ttl ++ u16 (length_of data) ++ data in
  is_bytes (rec ++ rest) -> NamePlain nb owner -> CanonRData ty data ->
  parse_rr dbg (rec ++ rest) = Ok (r, rest) ->
  write_data r = u16 (length_of data) ++ data /\ (CanonName nb owner -> write_rr r ttl = rec).
Proof.
  exact (fun dbg nb owner ty ttl data rest r Hb =>
    record_preserved dbg nb owner ty ttl data rest r (proj1 (is_bytes_ok _) Hb)).
Qed.
Print Assumptions C13_rdata_preserved_partial.
(** Missing: other chunkings of TXT data (all legal), which are re-chunked. The record below, with the
    two strings "a" and "b", is re-serialised with the single string "ab". *)
Theorem C13_rechunked_txt_refuted :
  ~ (forall inp r data pre, inp = pre ++ u16 (length_of data) ++ data -> length_of pre = 9 ->
     parse_rr false inp = Ok (r, []) -> write_data r = u16 (length_of data) ++ data).
Proof. exact rechunked_false. Qed.
Print Assumptions C13_rechunked_txt_refuted.
Example C13_example : CanonRData 16 ([3] ++ bs "abc") /\ CanonRData 2 ([1; 97; 0]).
Proof.
  split.
  - apply (CR_txt [bs "abc"]). exists [], (bs "abc"). repeat split; cbn; try lia. constructor.
  - apply (CR_name 2 _ (bs "a.")); [cbn; auto|]. exists [bs "a"]. split; [|repeat split].
    split; [|cbn; lia]. repeat constructor; try discriminate; cbn; try lia; discriminate.
Qed.
