(** Property C92: as C62, where the zones sign RRsets of any type and at any name, given on the wire. The
    world is specified in PubSpec.v. *)
From Verif Require Import Base NameM RRM SerM ValM NameSpec RecSpec ValSpec SecSpec PubSpec PubP ValW SecW PubW.
From Coq Require Import String.
Local Open Scope N_scope.

(** Whatever octets a proof consists of: a returned record means RDATA which a zone whose name ends its
    name has signed, with the whole of that RRset, if all zones with such names are honest. *)
Theorem C92_published_partial : forall e KeyOf Honest Signs dbg fuel proof inp v r, WireWorld e KeyOf Honest Signs -> is_bytes proof -> parse_rr_stream dbg proof = Ok inp ->
  verify_rr_stream e dbg fuel inp = Ok v -> In r (vr_rrs v) -> (forall d p, rr_name r = p ++ d -> proper_name d -> Honest d) ->
  exists z p, rr_name r = p ++ z /\ proper_name z /\ WirePublished Signs z v r.
Proof. exact proof_wire. Qed.
Print Assumptions C92_published_partial.
(** The RRsets which can be held as records make a world as in C62, C69 to C72 and C74. *)
Theorem C92_world : forall e KeyOf Honest Signs, WireWorld e KeyOf Honest Signs -> World e KeyOf Honest (text_signed Signs).
Proof. exact world_of. Qed.
Print Assumptions C92_world.
(** An answer from a wildcard, in a world of two honest zones which also sign an SOA record and a name
    of octets which are not characters; another address is refused. *)
Example C92_example : WireWorld (y_env false) x_keys (x_honest false) y_signed /\ (forall d, x_honest false d) /\
  (y_signed (bs ".") y_soa /\ pb_type y_soa = 6) /\ (y_signed (bs "a.") y_odd /\ pb_owner y_odd = [[0; 255]; [65]]) /\
  parse_rr_stream false (y_wire x_wild) = Ok x_wild /\
  (exists v, verify_rr_stream (y_env false) false 10 x_wild = Ok v /\ vr_rrs v = [w_a "x.a."] /\ exists z, WirePublished y_signed z v (w_a "x.a.")) /\
  parse_rr_stream false (y_wire x_forged) = Ok x_forged /\ verify_rr_stream (y_env false) false 10 x_forged = Err Invalid.
Proof. exact y_example. Qed.

(** Missing: the label boundary, as in C62. *)
Theorem C92_boundary_refuted : ~ (forall e KeyOf Honest Signs dbg fuel proof inp v r, WireWorld e KeyOf Honest Signs -> is_bytes proof -> parse_rr_stream dbg proof = Ok inp ->
  verify_rr_stream e dbg fuel inp = Ok v -> In r (vr_rrs v) -> (forall d, Subdomain (rr_name r) d -> Honest d) -> exists z, WirePublished Signs z v r).
Proof. exact wire_boundary_refuted. Qed.
Print Assumptions C92_boundary_refuted.
Example C92_boundary_example : WireWorld (y_env true) x_keys (x_honest true) y_signed /\ (forall d, Subdomain (bs "ba.") d -> x_honest true d) /\
  parse_rr_stream false (y_wire x_sibling) = Ok x_sibling /\ exists v, verify_rr_stream (y_env true) false 10 x_sibling = Ok v /\ vr_rrs v = [w_a "ba."].
Proof. split; [apply y_world |]. split; [exact x_sub | exact y_sibling_ok]. Qed.
