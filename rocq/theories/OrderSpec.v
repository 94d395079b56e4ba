(** Specification for the properties about order, repetition and irrelevance of input records. *)
From Verif Require Import Base RRM ValM NameSpec ValSpec.
From Coq Require Import Permutation.
Local Open Scope N_scope.

(** The same records in some order, with the same validity window and cache TTL. *)
Definition SameResult (v v' : verified) : Prop :=
  Permutation (vr_rrs v) (vr_rrs v') /\ vr_valid_from v = vr_valid_from v' /\ vr_expires v = vr_expires v' /\ vr_max_cache_ttl v = vr_max_cache_ttl v'.
(** Both accept, with the same result, or both reject with the same error, or neither ends. *)
Definition SameVerdict (o o' : outcome verr verified) : Prop :=
  match o, o' with Ok v, Ok v' => SameResult v v' | Err x, Err y => x = y | Panic, Panic => True | Loop, Loop => True | _, _ => False end.

(** [s] signs a record synthesised from a wildcard: it counts other than all the labels of its owner. *)
Definition Expanded (s : rrsig) : Prop :=
  rs_ty s <> 47 /\ ~ exists ls, LabelsOf (rs_name s) ls /\ N.of_nat (length ls) = rs_labels s.

(** The RRSIGs, and the DNSKEYs, of a list, in order. *)
Definition sigs_of (inp : list RR) : list rrsig := flat_map (fun r => match r with RR_RRSig s => [s] | _ => [] end) inp.
Definition keys_of (inp : list RR) : list dnskey := flat_map (fun r => match r with RR_DnsKey k => [k] | _ => [] end) inp.
