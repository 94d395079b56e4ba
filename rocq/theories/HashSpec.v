(** Specification for C80: hashing piece by piece. *)
From Verif Require Import Base RRM ValM HashM.
Local Open Scope N_scope.

(** The engine computes [f]: given any pieces, the hash of all of them in a row. *)
Definition Computes (x : engine) (f : list N -> list N) : Prop :=
  forall pieces, eng_hash x (fold_left (eng_input x) pieces (eng_new x)) = f (concat pieces).
(** The environment of [verify_rr_stream] has the hash functions which the library's engines compute. *)
Definition Provides (L : hashlib) (e : env) : Prop := Computes (l_sha1 L) (e_sha1 e) /\ Computes (l_sha256 L) (e_sha256 e).
