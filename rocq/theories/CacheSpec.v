(** Specification vocabulary for how long a proof may be cached. *)
From Verif Require Import Base RRM TimeSpec.
Local Open Scope N_scope.

(** RFC 4035 section 5.3.3: at the instant [now] the resolver hands out the RRSIG with a TTL of at most its Original TTL, and at
    most the time until it expires. About other records it may say what it likes. *)
Definition Capped (now : N) (rt : RR * N) : Prop :=
  match fst rt with
  | RR_RRSig s => snd rt <= rs_orig_ttl s /\ exists to, stands_for (rs_expiration s) to /\ in_window to /\ now + snd rt <= to
  | _ => True
  end.
