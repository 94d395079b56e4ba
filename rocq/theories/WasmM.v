(** Model of the proof-building half of wasmpack/src/lib.rs. Line numbers refer to that file. *)
From Verif Require Import Base NameM WireM RRM SerM QueryM.
Local Open Scope N_scope.

(** lib.rs:18 [WASMProofBuilder]: builder and FIFO of queries to send. *)
Record wasm := { w_builder : builder; w_queue : list qbuf }.

(** lib.rs:25-35 [init_proof_builder]. *)
Definition init_proof_builder (nm : bytes) (ty : N) : outcome unit (option wasm) :=
  let nm := if ends_with nm [dot] then nm else nm ++ [dot] in
  match name_try_from nm with
  | Some qname =>
      '(b, q) <- builder_new qname ty ;;
      Ok (Some {| w_builder := b; w_queue := [q] |})
  | None => Ok None
  end.

(** lib.rs:42-52 [process_query_response]. *)
Definition process_query_response (dbg : bool) (w : wasm) (response : bytes) : outcome unit wasm :=
  if len response <? 65535 then
    let answer := qb_fill (new_zeroed (as_u16 (len response))) response in
    match process_response dbg (w_builder w) (qb_deref answer) with
    | (Ok qs, b) => Ok {| w_builder := b; w_queue := w_queue w ++ qs |}
    | (Err _, b) => Ok {| w_builder := b; w_queue := w_queue w |}
    | (Panic, _) => Panic
    | (Loop, _) => Loop
    end
  else Ok w.

(** lib.rs:59-65 [get_next_query]. *)
Definition get_next_query (w : wasm) : option bytes * wasm :=
  match w_queue w with
  | q :: t => (Some (into_vec q), {| w_builder := w_builder w; w_queue := t |})
  | [] => (None, w)
  end.

(** lib.rs:70-72 [get_unverified_proof]. *)
Definition get_unverified_proof (w : wasm) : option bytes :=
  match finish_proof (w_builder w) with Ok (p, _) => Some p | _ => None end.
