(** Specification vocabulary for checking the reported window against a clock: RFC 1982 serial numbers of 32 bits, and when
    an RRSIG may be used (RFC 4034 section 3.1.5). *)
From Verif Require Import Base RRM TimeSpec.
Local Open Scope N_scope.

(** RFC 1982 section 3.2 with SERIAL_BITS = 32: [a] is less than [b]. *)
Definition serial_lt (a b : N) : Prop := (a < b /\ b - a < 2 ^ 31) \/ (b < a /\ 2 ^ 31 < a - b).
Definition serial_le (a b : N) : Prop := a = b \/ serial_lt a b.

(** RFC 4034 section 3.1.5: the RRSIG may be used at the instant [now], which a 32-bit clock shows modulo 2^32. *)
Definition Current (now : N) (s : rrsig) : Prop :=
  serial_le (rs_inception s) (now mod 2 ^ 32) /\ serial_le (now mod 2 ^ 32) (rs_expiration s).

(** The period of the RRSIG is less than 2^31 seconds, the most RFC 4034 can express. *)
Definition Expressible (s : rrsig) : Prop := serial_le (rs_inception s) (rs_expiration s).

(** [now] is between the instants which the two times stand for in the 2^32 seconds from the cutoff. *)
Definition Within (now : N) (s : rrsig) : Prop :=
  exists from to, stands_for (rs_inception s) from /\ in_window from /\ stands_for (rs_expiration s) to /\ in_window to /\
    from <= now <= to.
