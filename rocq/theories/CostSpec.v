(** Specification of what one connection of the server can cost. *)
From Coq Require Import List NArith.
From Verif Require Import Base QueryM ServerM.
Import ListNotations.
Local Open Scope N_scope.

(** Octets of a request which are kept; octets sent to the resolver (nine queries for names of 255
    characters, 285 octets each with the length, and 30 for the keys of the root); octets taken from
    it (ten messages of 65535 octets with their lengths); octets of a proof (C78); octets of an answer
    (181 for the header). *)
Definition REQUEST : N := 4096.
Definition SENT : N := 2595.
Definition TAKEN : N := 655370.
Definition PROOF : N := 24428854.
Definition ANSWER : N := 24429035.

(** The octets a task holds on to: of the request, or of the proof. *)
Definition holds (t : task) : N :=
  match tk_ctl t with
  | Reading buf => N.of_nat (List.length buf)
  | Proving b _ => N.of_nat (List.length (pb_proof b))
  | _ => 0
  end.
Definition all_held (s : server) : N := fold_right (fun t a => holds t + a) 0 (sv_tasks s).
