(** Property C98: how many octets are looked at for the names of a message. [s_handle_response] and
    [s_parse_rr_stream] are the readers with a count of them. *)
From Verif Require Import Base NameM WireM RRM SerM QueryM RecSpec LocalW StepM StepSpec StepP StepW.
Local Open Scope N_scope.

(** C98. The count changes nothing. *)
Theorem C98_same : (forall dbg inp, snd (s_parse_rr_stream dbg inp) = parse_rr_stream dbg inp) /\
  (forall dbg resp hs, snd (s_handle_response dbg resp hs) = handle_response dbg resp hs) /\
  (forall inp wire, snd (s_read_name inp wire) = read_wire_packet_name inp wire).
Proof. exact (conj same_stream (conj same_response same_name)). Qed.
Print Assumptions C98_same.
(** A name: at most 1021 octets, and 766 if it is read, however the pointers lead. *)
Theorem C98_name : forall inp wire, is_bytes wire -> is_bytes inp ->
  fst (s_read_name inp wire) <= NAME_ANY /\ forall n, snd (s_read_name inp wire) = Ok n -> fst (s_read_name inp wire) <= NAME_OK.
Proof. exact name_looks. Qed.
Print Assumptions C98_name.
(** A response: at most 766 for each 7 octets of it. *)
Theorem C98_response : forall dbg resp hs, is_bytes resp -> 7 * fst (s_handle_response dbg resp hs) <= NAME_OK * len resp.
Proof. exact response_looks. Qed.
Print Assumptions C98_response.
(** Not fewer: 1532 for each 14 octets, but for a prefix of 796. *)
Theorem C98_reached : forall k hs, N.of_nat k < 65535 ->
  is_bytes (many k) /\ len (many k) = 796 + 14 * N.of_nat k /\ fst (s_handle_response false (many k) hs) = 2 + 1532 * N.of_nat k.
Proof. exact many_all. Qed.
Print Assumptions C98_reached.
Theorem C98_smaller_refuted : ~ (forall dbg resp hs, is_bytes resp -> 7 * fst (s_handle_response dbg resp hs) <= (NAME_OK - 1) * len resp).
Proof. exact smaller_refuted. Qed.
Print Assumptions C98_smaller_refuted.
(** A message which TCP can carry is looked at 108 times over. *)
Theorem C98_fits : exists resp, is_bytes resp /\ len resp <= 65535 /\ forall hs, 108 * len resp < fst (s_handle_response false resp hs).
Proof. exact fits. Qed.
Print Assumptions C98_fits.
(** A proof: each octet at most once, for there are no pointers. *)
Theorem C98_proof : forall dbg inp, fst (s_parse_rr_stream dbg inp) <= len inp.
Proof. exact proof_looks. Qed.
Print Assumptions C98_proof.
(** And a record for each 11 octets at most. *)
Theorem C98_records : forall dbg inp rs, is_bytes inp -> parse_rr_stream dbg inp = Ok rs -> MIN_RR * N.of_nat (List.length rs) <= len inp.
Proof. exact proof_records. Qed.
Print Assumptions C98_records.

(** Names for which 766 and 1021 octets are looked at. *)
Example C98_example_name : s_read_name lo_inp lo_pkt = (NAME_OK, Ok (lo_name, [])) /\ s_read_name [192; 0] worst_pkt = (NAME_ANY, Err tt).
Proof. exact (conj best_looks worst_looks). Qed.
(** Two records in 22 octets. *)
Example C98_example_records : parse_rr_stream true [0; 0; 16; 0; 1; 0; 0; 0; 0; 0; 0; 0; 0; 16; 0; 1; 0; 0; 0; 0; 0; 0] =
  Ok [RR_Txt {| tx_name := [46]; tx_data := [] |}; RR_Txt {| tx_name := [46]; tx_data := [] |}].
Proof. exact small_records. Qed.
