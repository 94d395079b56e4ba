(** Specification of what a JavaScript caller of [lookup_doh] sees: the text it is given, read as JSON. *)
From Coq Require Import List NArith String.
From Verif Require Import Base RRM ValM TextSpec JsonSpec.
Import ListNotations.
Local Open Scope N_scope.

(** [JSON.stringify(JSON.parse(..))] (ECMA-262 25.5): the second value is the first as JavaScript has it. Integers up to 2^53 are kept;
    so are strings unless they have surrogates in them, and the members of an object unless two have one name or a name is an
    array index. *)
Definition numeral (k : list N) : Prop := k <> [] /\ Forall is_digit k.
Inductive Same : jval -> jval -> Prop :=
| Same_null : Same JNull JNull
| Same_bool b : Same (JBool b) (JBool b)
| Same_num a b : (forall n, n <= 2 ^ 53 -> Decimal n a -> Decimal n b) -> Same (JNum a) (JNum b)
| Same_str a b : (Utf8 a \/ Forall (fun c => c < 128) b -> a = b) -> Same (JStr a) (JStr b)
| Same_arr l l' : Forall2 Same l l' -> Same (JArr l) (JArr l')
| Same_obj l l' : (NoDup (map fst l) -> Forall (fun kv => ~ numeral (fst kv)) l -> Forall2 (fun kv kv' => fst kv = fst kv' /\ Same (snd kv) (snd kv')) l l') -> Same (JObj l) (JObj l').
(** What is asked of [reparse]. *)
Definition Reformats (reparse : list N -> option (list N)) : Prop :=
  forall s s' j', reparse s = Some s' -> Json s' j' -> exists j, Json s j /\ Same j j'.

(** [r] is what [r0] is taken for when the escapes in its texts are undone. *)
Definition Undone (f0 f : field) : Prop := match f0, f with FText s, FText d => Str s d | _, _ => f0 = f end.
Definition Spelled (r0 r : RR) : Prop :=
  Forall2 (fun f0 f => fst f0 = fst f /\ Undone (snd f0) (snd f)) (fields r0) (fields r).
