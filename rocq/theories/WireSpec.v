(** Specification of wire-format domain names (RFC 1035 4.1.4), independent of the model. *)
From Coq Require Import List NArith.
From Verif Require Import NameSpec.
Import ListNotations.
Local Open Scope N_scope.

(** [NameEnc pkt d inp text rest]: [inp] starts with an encoding of a domain name, followed by [rest];
    its labels, each followed by a dot, spell [text]. [pkt] is the packet pointers refer to and [d] the
    number of pointers which may still be followed. When no pointer may be followed any more, length
    bytes from 192 are taken as ordinary lengths (they only matter for labels containing dots). *)
Inductive NameEnc (pkt : list N) : nat -> list N -> list N -> list N -> Prop :=
| NE_root d rest : NameEnc pkt d (0 :: rest) [] rest
| NE_label d l content inp text rest :
    0 < l -> l < 192 \/ d = O -> N.of_nat (length content) = l ->
    NameEnc pkt d inp text rest ->
    NameEnc pkt d (l :: content ++ inp) (content ++ 46 :: text) rest
| NE_ptr d hi lo rest text rest' :
    192 <= hi -> (hi - 192) * 256 + lo < N.of_nat (length pkt) ->
    NameEnc pkt d (skipn (N.to_nat ((hi - 192) * 256 + lo)) pkt) text rest' ->
    NameEnc pkt (S d) (hi :: lo :: rest) text rest.

(** The text of a decoded name: the root is written ".". *)
Definition text_or_root (t : list N) : list N := match t with [] => [46] | _ => t end.

(** A name in uncompressed form: each label after its length, then 0. *)
Definition wire_labels (ls : list (list N)) : list N :=
  flat_map (fun l => N.of_nat (length l) :: l) ls.
Definition wire_name (ls : list (list N)) : list N := wire_labels ls ++ [0].
