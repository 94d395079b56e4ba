(** Concrete streams and records which witness the refuted claims of Prop_Wire and Prop_Records. *)
From Verif Require Import Base NameM WireM RRM SerM NameSpec WireSpec BitmapSpec RecSpec
  NameP WireP BitmapP RecP RecP2 RecP3.
From Coq Require Import String.
Local Open Scope N_scope.

Lemma root_proper : proper_name [46].
Proof. exists []. split; [|split; reflexivity]. split; [constructor|cbn; lia]. Qed.

Definition empty_txt := RR_Txt {| tx_name := [46]; tx_data := [] |}.
Lemma empty_txt_ok : typed_rr proper_name empty_txt /\ fits_rr empty_txt.
Proof. split; [split; [exact root_proper|constructor]|]. vm_compute. discriminate. Qed.

(* A root-owned NS record with a byte after the name server. *)
Definition ns_trailing : bytes := [0] ++ u16 2 ++ u16 1 ++ u32 0 ++ u16 4 ++ [1; 97; 0; 255].
(* An NSEC record whose bitmap has window 255 with 33 octets. *)
Definition nsec_overlong : bytes :=
  [0] ++ u16 47 ++ u16 1 ++ u32 0 ++ u16 36 ++ [0; 255; 33] ++ repeat 0 33.
(* A TXT record with the two strings a and b. *)
Definition txt_two : bytes := [0] ++ u16 16 ++ u16 1 ++ u32 0 ++ u16 4 ++ [1; 97; 1; 98].

Lemma all_names_roundtrip_false :
  ~ (forall n pkt rest, name_try_from n = Some n ->
     read_wire_packet_name (write_name n ++ rest) pkt = Ok (n, rest)).
Proof. intros H. specialize (H (bs "a..b.") [] [] eq_refl). vm_compute in H. discriminate. Qed.

Lemma empty_txt_roundtrip_false : ~ (forall r ttl rest,
  typed_rr proper_name r -> fits_rr r -> ttl < 4294967296 ->
  parse_wire_packet_rr false (write_rr r ttl ++ rest) [] = Ok (r, ttl, rest)).
Proof.
  intros H. destruct empty_txt_ok as [H1 H2].
  specialize (H empty_txt 0 [] H1 H2 eq_refl). vm_compute in H. discriminate.
Qed.
Lemma empty_label_roundtrip_false : ~ (forall r ttl rest,
  typed_rr (fun n => name_try_from n = Some n) r -> fits_rr r -> nonempty_txt r -> ttl < 4294967296 ->
  parse_wire_packet_rr false (write_rr r ttl ++ rest) [] = Ok (r, ttl, rest)).
Proof.
  intros H.
  specialize (H (RR_NS {| nr_name := [46]; nr_server := bs "a..b." |}) 0 [] (conj eq_refl eq_refl) I I eq_refl).
  vm_compute in H. discriminate.
Qed.
Lemma empty_txt_stream_false : ~ (forall l,
  Forall (fun rt => typed_rr proper_name (fst rt) /\ fits_rr (fst rt) /\ snd rt < 4294967296) l ->
  parse_rr_stream false (flat_map (fun rt => write_rr (fst rt) (snd rt)) l) = Ok (map fst l)).
Proof.
  intros H. destruct empty_txt_ok as [H1 H2].
  assert (Hf : Forall (fun rt => typed_rr proper_name (fst rt) /\ fits_rr (fst rt) /\ snd rt < 4294967296)
                 [(empty_txt, 0)]) by (constructor; [exact (conj H1 (conj H2 eq_refl))|constructor]).
  specialize (H _ Hf). vm_compute in H. discriminate.
Qed.
Lemma strict_grammar_false : ~ (forall inp rrs, is_bytes inp ->
  (parse_rr_stream false inp = Ok rrs <-> StreamEnc NamePlain false inp rrs)).
Proof.
  intros H.
  assert (Hb : is_bytes ns_trailing) by (repeat constructor).
  assert (H1 : StreamEnc NamePlain false ns_trailing [RR_NS {| nr_name := [46]; nr_server := bs "a." |}])
    by (apply H; [exact Hb|reflexivity]).
  apply (parse_stream_spec true) in H1; [|reflexivity]. vm_compute in H1. discriminate.
Qed.
Lemma never_panics_false : forall dbg, ~ (forall inp, is_bytes inp -> parse_rr_stream dbg inp <> Panic).
Proof.
  intros dbg H. apply (H nsec_overlong); [|destruct dbg; reflexivity].
  apply Forall_forall. intros x Hx. vm_compute in Hx.
  repeat (destruct Hx as [<-|Hx]; [reflexivity|]). destruct Hx.
Qed.
Lemma rechunked_false :
  ~ (forall inp r data pre, inp = pre ++ u16 (length_of data) ++ data -> length_of pre = 9 ->
     parse_rr false inp = Ok (r, []) -> write_data r = u16 (length_of data) ++ data).
Proof.
  intros H. specialize (H txt_two (RR_Txt {| tx_name := [46]; tx_data := [97; 98] |}) [1; 97; 1; 98]
            ([0] ++ u16 16 ++ u16 1 ++ u32 0) eq_refl eq_refl eq_refl). vm_compute in H. discriminate.
Qed.
