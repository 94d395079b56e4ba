(** Model of the fuzz targets: fuzz/src and the [cfg(fuzzing)] parts of src/query.rs, src/validation.rs and src/base32.rs. *)
From Verif Require Import Base NameM WireM RRM SerM ValM QueryM Base32M.
From Coq Require Import String.
Local Open Scope N_scope.

(** query.rs:25: [STACK_BUF_LIMIT] when fuzzing. *)
Definition FUZZ_BUF_LIMIT : N := 32.

(** validation.rs:155-161: when fuzzing, after the crypto library was called, a signature whose first byte is 1 passes. As an
    unsupported algorithm and an unparseable RSA key return before (lines 126, 153), this is another answer of the library. *)
Definition fuzzing (e : env) : env :=
  {| e_sha1 := e_sha1 e; e_sha256 := e_sha256 e;
     e_sig := fun alg pk msg sig => e_sig e alg pk msg sig || match sig with c :: _ => c =? 1 | [] => false end;
     e_sort_needs := e_sort_needs e |}.

(** [let _ = r;]: results are dropped, panics are not.
    src/query.rs:118-121, 182-191; fuzz/src/parse_stream_validate.rs. *)
Definition dropped {E A} (r : outcome E A) : outcome unit unit :=
  match r with Ok _ | Err _ => Ok tt | Panic => Panic | Loop => Loop end.

(** query.rs:118-121 [fuzz_response] (fuzz/src/parse_response.rs). *)
Definition fuzz_response (dbg : bool) (data : bytes) : outcome unit unit := dropped (fst (handle_response dbg data ([], []))).

(** query.rs:184-191: the loop. The target returns nothing; here the builder it drops is the result, so that one can say which
    calls were made. The queries [process_response] returns are dropped (they are built in buffers with another limit, which
    changes neither their contents nor whether building them panics: [build_query_at]). *)
Fixpoint fuzz_loop (dbg : bool) (fuel : nat) (b : builder) (s : bytes) : outcome unit builder :=
  if awaiting_responses b then
    match fuel with
    | O => Loop
    | S f =>
        match read_u16 s with
        | Ok (l, s) =>
            let buf := new_zeroed_at FUZZ_BUF_LIMIT l in
            if len s <? l then Ok b                                            (* :187 *)
            else
              let buf := fill_at FUZZ_BUF_LIMIT buf (takeN l s) in             (* :188 *)
              match process_response dbg b (deref_at FUZZ_BUF_LIMIT buf) with
              | (Ok _, b') | (Err _, b') => fuzz_loop dbg f b' (dropN l s)
              | (Panic, _) => Panic
              | (Loop, _) => Loop
              end
        | Err _ => Ok b                                                        (* :185 *)
        | Panic => Panic
        | Loop => Loop
        end
    end
  else _ <- dropped (finish_proof b) ;; Ok b.                                  (* :192 *)
(** query.rs:182-193 [fuzz_proof_builder] (fuzz/src/fuzz_builder.rs). *)
Definition fuzz_proof_builder (dbg : bool) (fuel : nat) (s : bytes) : outcome unit builder :=
  match name_try_from (bs "example.com.") with
  | None => Panic                                                              (* :183 unwrap *)
  | Some n =>
      match build_query_at FUZZ_BUF_LIMIT n 16 with                            (* :183 [ProofBuilder::new] *)
      | Ok _ => fuzz_loop dbg fuel builder_init s
      | Err x => Err x
      | Panic => Panic
      | Loop => Loop
      end
  end.

(** fuzz/src/parse_stream_validate.rs:20-23. *)
Definition parse_stream_validate (e : env) (dbg : bool) (fuel : nat) (data : bytes) : outcome unit unit :=
  match parse_rr_stream dbg data with
  | Ok rrs => dropped (verify_rr_stream (fuzzing e) dbg fuel rrs)
  | r => dropped r
  end.

(** base32.rs:83, 110: the capacity asked for, and (when fuzzing) asserted at the end. *)
Definition b32_cap (data : bytes) : N := (len data + 7) / 8 * 5.
