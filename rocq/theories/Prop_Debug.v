(** Property C63: a debug build that does not panic does what a release build does. *)
From Verif Require Import Base NameM WireM RRM SerM ValM QueryM WasmM JsonM RecW ValW QueryW DbgP.
From Coq Require Import String.
Local Open Scope N_scope.

Theorem C63_parse : forall inp, parse_rr_stream true inp <> Panic -> parse_rr_stream false inp = parse_rr_stream true inp.
Proof. exact parse_same. Qed.
Print Assumptions C63_parse.
Theorem C63_verify : forall e fuel inp, verify_rr_stream e true fuel inp <> Panic -> verify_rr_stream e false fuel inp = verify_rr_stream e true fuel inp.
Proof. exact verify_same. Qed.
Print Assumptions C63_verify.
(** Including the state the builder is left in, and the queries sent. *)
Theorem C63_respond : forall b resp, fst (process_response true b resp) <> Panic -> process_response false b resp = process_response true b resp.
Proof. exact respond_same. Qed.
Print Assumptions C63_respond.
Theorem C63_build : forall fuel domain ty segs, fst (build_proof true fuel domain ty segs) <> Panic ->
  build_proof false fuel domain ty segs = build_proof true fuel domain ty segs.
Proof. exact build_same. Qed.
Print Assumptions C63_build.
Theorem C63_wasm : forall e fuel s w resp,
  (verify_byte_stream e true fuel s <> Panic -> verify_byte_stream e false fuel s = verify_byte_stream e true fuel s) /\
  (process_query_response true w resp <> Panic -> process_query_response false w resp = process_query_response true w resp).
Proof. exact wasm_same. Qed.
Print Assumptions C63_wasm.
(** A stream accepted by both, one refused by both, and one on which only the debug build panics. *)
Example C63_example :
  verify_rr_stream toy_env true 10 w_plain <> Panic /\ verify_rr_stream toy_env false 10 w_plain = verify_rr_stream toy_env true 10 w_plain /\
  parse_rr_stream true [1; 97; 0; 0; 1] = Err tt /\ parse_rr_stream false [1; 97; 0; 0; 1] = Err tt /\
  parse_rr_stream true ns_trailing = Panic /\ parse_rr_stream false ns_trailing <> Panic.
Proof. repeat split; vm_compute; (reflexivity || discriminate). Qed.
