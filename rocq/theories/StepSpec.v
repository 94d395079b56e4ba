(** Specification: the octets of a message and how many names and records can be in them. *)
From Verif Require Import Base RRM.
Local Open Scope N_scope.

(** A record is at least 11 octets: the root as its owner, type, class, TTL, the length of its data. *)
Definition MIN_RR : N := 11.
(** Most octets looked at for a name: 255 pointers, and a name of 255 octets with its end. *)
Definition NAME_OK : N := 2 * 255 + 256.
(** When it is refused: as many, without the end, and one more label of up to 255 octets. *)
Definition NAME_ANY : N := NAME_OK + 255.
