(** Specification of C87: the rules of RFC 4035 5.3.1 for using an RRSIG, but for the comparison of its times
    with the clock, which is the caller's (C73). The RRset is that of the owner name and type of the RRSIG. *)
From Verif Require Import Base RRM ValM NameSpec ValSpec AcceptSpec.
Local Open Scope N_scope.

Section Rules.
  Variables (inp : list RR) (z : list N) (s : rrsig).
  (** The signer's name is the name of the zone, *)
  Definition SignerRule : Prop := rs_key_name s = z.
  (** which contains the RRset. *)
  Definition ZoneRule : Prop := Subdomain (rs_name s) z.
  (** The owner name has at least as many labels as the labels field says. *)
  Definition LabelsRule : Prop := exists ls, LabelsOf (rs_name s) ls /\ rs_labels s <= N.of_nat (length ls).
  (** A DNSKEY at the apex of the zone has the algorithm and key tag of the RRSIG, and the Zone Flag (bit 7
      from the left of 16). *)
  Definition KeyRule : Prop := exists k, In (RR_DnsKey k) inp /\ dk_name k = z /\ dk_alg k = rs_alg s /\ key_tag k = rs_key_tag s /\ N.testbit (dk_flags k) (15 - 7) = true.
  (** There is a time not before the inception and not after the expiration. *)
  Definition TimesRule : Prop := resolve_time (rs_inception s) <= resolve_time (rs_expiration s).
End Rules.

(** Every RRSIG relied on, with its zone. *)
Definition ReliedOn (e : env) (inp : list RR) (z : list N) (s : rrsig) : Prop := Visited e inp z /\ (KeySig e inp z s \/ GoodSig e inp z s).
