(** Specification of a session with the WASM proof builder. *)
From Coq Require Import List NArith.
From Verif Require Import Base QueryM WasmM.
Import ListNotations.
Local Open Scope N_scope.

(** What the JavaScript side does: give a response, ask for the next query (with the answer). *)
Inductive event :=
| Gave (m : list N)
| Took (q : option (list N)).
Inductive Session (dbg : bool) : wasm -> list event -> wasm -> Prop :=
| Session_nil w : Session dbg w [] w
| Session_give w evs w1 m w2 : Session dbg w evs w1 -> process_query_response dbg w1 m = Ok w2 -> Session dbg w (evs ++ [Gave m]) w2
| Session_take w evs w1 q w2 : Session dbg w evs w1 -> get_next_query w1 = (q, w2) -> Session dbg w (evs ++ [Took q]) w2.

(** The responses given and the queries taken, in order. *)
Definition given (evs : list event) : list (list N) := flat_map (fun e => match e with Gave m => [m] | _ => [] end) evs.
Definition taken (evs : list event) : list (list N) := flat_map (fun e => match e with Took (Some q) => [q] | _ => [] end) evs.
(** Responses which fit a DNS message, and those which are shorter than the longest one. *)
Definition short (limit : N) (ms : list (list N)) : list (list N) := filter (fun m => N.of_nat (length m) <? limit) ms.
(** A name with its final dot. *)
Definition completed (nm : list N) : list N := if N.eq_dec (last nm 0) 46 then nm else nm ++ [46].
