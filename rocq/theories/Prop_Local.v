(** Property C94: how many octets reading a name depends on. *)
From Verif Require Import Base WireM LocalSpec LocalP LocalW.
Local Open Scope N_scope.

(** C94. Whatever a packet holds - pointers to pointers, to themselves, into the middle of labels -, what is read as a name depends on at
    most 766 octets: a prefix of [k] octets, which is what is consumed, and octets at [ps] in the packet. *)
Theorem C94_local : forall inp pkt, exists k ps, (k + List.length ps <= 766)%nat /\ forall inp' pkt', List.length inp = List.length inp' -> firstn k inp = firstn k inp' -> AgreeAt ps pkt pkt' ->
  match read_wire_packet_name inp pkt with
  | Ok (n, rest) => rest = skipn k inp /\ read_wire_packet_name inp' pkt' = Ok (n, skipn k inp')
  | _ => read_wire_packet_name inp' pkt' = Err tt
  end.
Proof. exact read_name_local. Qed.
Print Assumptions C94_local.
(** There are packets for which it is as many as that. *)
Theorem C94_tight : exists inp pkt, forall k ps, (forall inp' pkt', List.length inp = List.length inp' -> firstn k inp = firstn k inp' -> AgreeAt ps pkt pkt' ->
  match read_wire_packet_name inp pkt with
  | Ok (n, rest) => rest = skipn k inp /\ read_wire_packet_name inp' pkt' = Ok (n, skipn k inp')
  | _ => read_wire_packet_name inp' pkt' = Err tt
  end) -> (766 <= k + List.length ps)%nat.
Proof. exact lo_tight. Qed.
Print Assumptions C94_tight.
Example C94_example : forall a b c pkt, read_wire_packet_name [1; 97; 0; a; b] pkt = Ok ([97; 46], [a; b]) /\ read_wire_packet_name [192; 1] [c; 1; 98; 0; a; b] = Ok ([98; 46], []).
Proof. exact lo_example. Qed.
