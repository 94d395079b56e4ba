(** Specification vocabulary for signature times. *)
From Coq Require Import NArith.
Local Open Scope N_scope.

(** A 32-bit timestamp stands for the instants congruent to it (RFC 4034 section 3.1.5). *)
Definition stands_for (t x : N) : Prop := x mod 2 ^ 32 = t.
(** 1997-01-01T00:00:00Z: 27 years of which seven were leap years. *)
Definition january_1997 : N := (27 * 365 + 7) * 86400.
(** The 2^32 seconds from the cutoff the code really uses, 1996-12-25T00:00:00Z. *)
Definition in_window (x : N) : Prop := 27 * 365 * 86400 <= x < 27 * 365 * 86400 + 2 ^ 32.
