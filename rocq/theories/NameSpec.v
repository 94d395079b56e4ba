(** Specification vocabulary for domain names, independent of the model: a name is a list of labels;
    its text is the labels each followed by a dot. *)
From Coq Require Import List NArith Permutation.
Import ListNotations.
Local Open Scope N_scope.

(** Text of a label list: [dotted ["a";"b"]] is "a.b."; the root (no labels) is ".". *)
Definition dots (ls : list (list N)) : list N := concat (map (fun l => l ++ [46]) ls).
Definition dotted (ls : list (list N)) : list N :=
  match ls with [] => [46] | _ => dots ls end.

(** Characters allowed in a label: printable ASCII, not the double quote, not the dot. *)
Definition label_char (c : N) : Prop := 33 <= c <= 126 /\ c <> 34 /\ c <> 46.
Definition label_ok (l : list N) : Prop := (length l <= 63)%nat /\ Forall label_char l.

(** ASCII lower-casing. *)
Definition to_lower (c : N) : N := if andb (65 <=? c) (c <=? 90) then c + 32 else c.
Definition lower (s : list N) : list N := map to_lower s.

(** What the documentation of [Name] accepts (src/rr.rs:17-21): a non-empty series of dot-terminated
    labels. Labels may be empty: the documentation does not forbid it. *)
Definition acceptable (s : list N) : Prop :=
  exists ls, ls <> [] /\ s = dots ls /\ Forall label_ok ls /\ (length s <= 255)%nat.

(** A genuine DNS name: no empty labels (the root has none at all). *)
Definition proper (ls : list (list N)) : Prop :=
  Forall (fun l => l <> [] /\ label_ok l) ls /\ (length (dotted ls) <= 255)%nat.
(** ... in the canonical (lower-case) form in which the API holds it. *)
Definition proper_name (n : list N) : Prop := exists ls, proper ls /\ n = dotted ls /\ lower n = n.

(** Lexicographic order generated by an order on the elements; a proper prefix comes first. *)
Inductive lex {A} (lt : A -> A -> Prop) : list A -> list A -> Prop :=
| lex_nil y b : lex lt [] (y :: b)
| lex_here x y a b : lt x y -> lex lt (x :: a) (y :: b)
| lex_later x a b : lex lt a b -> lex lt (x :: a) (x :: b).

(** RFC 4034 section 6.1: sort by the most significant (rightmost) label first, each label as an
    octet string with upper-case letters treated as lower case; absent labels sort first. *)
Definition canonical_lt (a b : list (list N)) : Prop :=
  lex (lex N.lt) (rev (map lower a)) (rev (map lower b)).

(** [a] is at or below [z] in the DNS tree: [z]'s labels end [a]'s. *)
Definition subdomain (a z : list (list N)) : Prop := exists p, a = p ++ z.
