(** Property C68: the fuzz targets. *)
From Verif Require Import Base NameM WireM RRM SerM RecSpec ValSpec ValM QueryM QuerySpec Base32M RecW ValW QueryW FuzzM FuzzSpec FuzzP FuzzW.
From Coq Require Import String PeanoNat.
Local Open Scope N_scope.

(** C68. A response panics the parsing target exactly if it is a [BadResponse] (C57); the target never hangs. *)
Theorem C68_response_partial : forall dbg m, is_bytes m -> (fuzz_response dbg m = Panic <-> BadResponse dbg m) /\ fuzz_response dbg m <> Loop.
Proof. exact fuzz_response_panic. Qed.
Print Assumptions C68_response_partial.
Theorem C68_response_refuted : forall dbg, ~ (forall m, is_bytes m -> fuzz_response dbg m <> Panic).
Proof. exact fuzz_response_refuted. Qed.
Print Assumptions C68_response_refuted.
(** The builder target hands the frames of its input, accepted or not, to the builder, until it awaits no more or no complete frame is left... *)
Theorem C68_builder : forall dbg fuel s b, is_bytes s -> (List.length s < fuel)%nat ->
  (fuzz_proof_builder dbg fuel s = Ok b <->
   exists tr rest, Feeds dbg s tr b rest /\ (awaiting_responses b = false \/ ~ exists m r, length_of m <= 65535 /\ rest = frame m ++ r)).
Proof. exact fuzz_builder_ok. Qed.
Print Assumptions C68_builder.
(** ... or one of them panics; it never hangs. *)
Theorem C68_builder_panics_partial : forall dbg fuel s, is_bytes s -> (List.length s < fuel)%nat ->
  (fuzz_proof_builder dbg fuel s = Panic <->
   exists tr b m rest, Feeds dbg s tr b (frame m ++ rest) /\ awaiting_responses b = true /\ length_of m <= 65535 /\ BadResponse dbg m).
Proof. exact fuzz_builder_panic. Qed.
Print Assumptions C68_builder_panics_partial.
Theorem C68_builder_ends : forall dbg fuel s, is_bytes s -> (List.length s < fuel)%nat -> fuzz_proof_builder dbg fuel s <> Loop.
Proof. exact fuzz_builder_ends. Qed.
Print Assumptions C68_builder_ends.
Theorem C68_builder_refuted : forall dbg,
  ~ (forall s, is_bytes s -> exists fuel, fuzz_proof_builder dbg fuel s <> Panic /\ fuzz_proof_builder dbg fuel s <> Loop).
Proof. exact fuzz_builder_refuted. Qed.
Print Assumptions C68_builder_refuted.
(** A buffer, and so a query, is the same whatever the size of the part on the stack (32 bytes when fuzzing). *)
Theorem C68_limit : forall lim n sls, n <= 65535 ->
  match extends_at lim (new_zeroed_at lim n) sls, extends (new_zeroed n) sls with
  | Ok a, Ok b => deref_at lim a = qb_deref b /\ into_vec_at lim a = into_vec b /\ qb_len a = qb_len b
  | Panic, Panic => True
  | _, _ => False
  end.
Proof. exact limit_buffer. Qed.
Print Assumptions C68_limit.
Theorem C68_limit_query : forall lim n ty, name_try_from n = Some n -> ty < 65536 ->
  exists a b, build_query_at lim n ty = Ok a /\ build_query n ty = Ok b /\ deref_at lim a = qb_deref b.
Proof. exact limit_query. Qed.
Print Assumptions C68_limit_query.
(** The validator accepts a signature starting with 1 when fuzzing. That changes its result only where it would have been [Invalid],
    and only if there is such a signature. *)
Theorem C68_fuzzing_agrees : forall e dbg fuel inp, verify_rr_stream e dbg fuel inp <> Err Invalid ->
  verify_rr_stream (fuzzing e) dbg fuel inp = verify_rr_stream e dbg fuel inp.
Proof. exact fuzzing_agrees. Qed.
Print Assumptions C68_fuzzing_agrees.
Theorem C68_fuzzing_same : forall e dbg fuel inp, (forall s r, In (RR_RRSig s) inp -> rs_signature s <> 1 :: r) ->
  verify_rr_stream (fuzzing e) dbg fuel inp = verify_rr_stream e dbg fuel inp.
Proof. exact fuzzing_same. Qed.
Print Assumptions C68_fuzzing_same.
Theorem C68_fuzzing_refuted : ~ (forall e dbg fuel inp, verify_rr_stream (fuzzing e) dbg fuel inp = verify_rr_stream e dbg fuel inp).
Proof. exact fuzzing_refuted. Qed.
Print Assumptions C68_fuzzing_refuted.
(** In general: a crypto library which accepts more signatures changes no result but [Invalid]. *)
Theorem C68_more_signatures : forall e e' dbg fuel inp, (forall x, e_sha1 e x = e_sha1 e' x) -> (forall x, e_sha256 e x = e_sha256 e' x) ->
  (forall l, e_sort_needs e l = e_sort_needs e' l) ->
  (forall s, In (RR_RRSig s) inp -> forall a pk m, e_sig e a pk m (rs_signature s) = true -> e_sig e' a pk m (rs_signature s) = true) ->
  verify_rr_stream e dbg fuel inp <> Err Invalid -> verify_rr_stream e' dbg fuel inp = verify_rr_stream e dbg fuel inp.
Proof. exact verify_sig_mono. Qed.
Print Assumptions C68_more_signatures.
(** What panics the validating target (C10, C26), and what makes it hang (C25). *)
Theorem C68_validate_panics_partial : forall e dbg fuel data, is_bytes data ->
  (parse_stream_validate e dbg fuel data = Panic ->
    BadStream NamePlain (negb dbg) dbg data \/
    dbg = true /\ exists rrs z s, parse_rr_stream dbg data = Ok rrs /\ EmptyMaxLabels rrs s /\
      TrustedZone (fuzzing e) rrs (fun _ => True) z /\ SignedByZone (fuzzing e) rrs (fun _ => True) z s) /\
  (BadStream NamePlain (negb dbg) dbg data -> parse_stream_validate e dbg fuel data = Panic).
Proof. exact validate_panics. Qed.
Print Assumptions C68_validate_panics_partial.
Theorem C68_validate_panics_refuted : forall dbg, ~ (forall e fuel data, is_bytes data -> parse_stream_validate e dbg fuel data <> Panic).
Proof. exact validate_panic_refuted. Qed.
Print Assumptions C68_validate_panics_refuted.
Theorem C68_validate_ends_partial : forall e dbg data rrs s0 n, is_bytes data -> parse_rr_stream dbg data = Ok rrs ->
  (forall s, In (RR_RRSig s) rrs /\ rs_ty s = 43 -> rs_name s <> rs_key_name s) ->
  In (RR_RRSig s0) rrs /\ rs_ty s0 = 43 -> rs_key_name s0 = [46] -> supported_alg (rs_alg s0) ->
  (S (List.length (rrsigs rrs)) ^ 255 <= n)%nat -> parse_stream_validate e dbg (S n) data <> Loop.
Proof. exact validate_ends. Qed.
Print Assumptions C68_validate_ends_partial.
Theorem C68_validate_ends_refuted : ~ (forall e data, is_bytes data -> exists fuel, parse_stream_validate e false fuel data <> Loop).
Proof. exact validate_ends_refuted. Qed.
Print Assumptions C68_validate_ends_refuted.
(** The base 32 decoder writes exactly as many bytes as it reserved, of which it then keeps a prefix. *)
Theorem C68_capacity : forall data r, b32_dec_chunks (chunks 8 data) = Some r -> len r = b32_cap data /\ len data * 5 / 8 <= len r.
Proof. exact b32_capacity. Qed.
Print Assumptions C68_capacity.
(** A rejected response, an accepted one, and an incomplete frame; a stream accepted by a fuzz build only. *)
Example C68_example :
  (match fuzz_proof_builder true 1000 (frame [1; 2] ++ frame (m_plain 60) ++ [0; 9]) with
   | Ok b => awaiting_responses b = false /\ pb_min_ttl b = 60
   | _ => False
   end) /\
  parse_stream_validate strict_env false 10 (flat_map (fun r => write_rr r 0) (map one_signed w_plain)) = Ok tt /\
  verify_rr_stream strict_env false 10 (map one_signed w_plain) = Err Invalid /\
  (exists v, verify_rr_stream (fuzzing strict_env) false 10 (map one_signed w_plain) = Ok v /\ vr_rrs v = [w_a "x.a."]) /\
  verify_rr_stream (fuzzing toy_env) false 10 w_plain = verify_rr_stream toy_env false 10 w_plain /\
  (exists r, b32_dec_chunks (chunks 8 (bs "2t7b")) = Some r /\ len r = 5).
Proof. repeat match goal with |- _ /\ _ => split end; try (vm_compute; reflexivity); try (vm_compute; split; reflexivity); eexists; split; vm_compute; reflexivity. Qed.
