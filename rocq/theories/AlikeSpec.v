(** Streams of records which mean the same records: what may differ between them. *)
From Coq Require Import List NArith.
From Verif Require Import NameSpec WireSpec BitmapSpec RecSpec.
Import ListNotations.
Local Open Scope N_scope.

(** Two names on the wire with the same text, but for the case of letters. (A dot within a label is taken for the end of one.) *)
Definition SameName (ls ls' : list (list N)) : Prop :=
  Forall (fun l => (1 <= length l <= 191)%nat) ls /\ Forall (fun l => (1 <= length l <= 191)%nat) ls' /\ lower (dots ls) = lower (dots ls').
(** Two type bitmaps with the same types. *)
Definition SameTypes (bits bits' : list N) : Prop := exists mask, BitmapEnc bits mask /\ BitmapEnc bits' mask.
Definition in_strings (strs : list (list N)) : list N := flat_map (fun s => length_of s :: s) strs.

(** Types and RDATA. Octets after the name are of no account if [lax]. *)
Inductive SameData (lax : bool) : N -> list N -> list N -> Prop :=
| SD_same ty d : SameData lax ty d d
| SD_name ty ls ls' extra extra' : In ty [2; 5; 39] -> SameName ls ls' -> lax = true \/ extra = extra' ->
    SameData lax ty (wire_name ls ++ extra) (wire_name ls' ++ extra')
| SD_txt strs strs' : concat strs = concat strs' -> SameData lax 16 (in_strings strs) (in_strings strs')
| SD_sig h ls ls' sg : length_of h = 18 -> SameName ls ls' -> SameData lax 46 (h ++ wire_name ls ++ sg) (h ++ wire_name ls' ++ sg)
| SD_nsec ls ls' bits bits' : SameName ls ls' -> SameTypes bits bits' -> SameData lax 47 (wire_name ls ++ bits) (wire_name ls' ++ bits')
| SD_nsec3 h salt nh bits bits' : length_of h = 4 -> SameTypes bits bits' ->
    SameData lax 50 (h ++ length_of salt :: salt ++ length_of nh :: nh ++ bits) (h ++ length_of salt :: salt ++ length_of nh :: nh ++ bits').
(** Records: any TTLs. *)
Inductive SameRecord (lax : bool) : list N -> list N -> Prop :=
| SR_intro ls ls' ty ttl ttl' data data' : SameName ls ls' -> SameData lax ty data data' ->
    SameRecord lax (wire_name ls ++ u16 ty ++ u16 1 ++ u32 ttl ++ u16 (length_of data) ++ data)
                   (wire_name ls' ++ u16 ty ++ u16 1 ++ u32 ttl' ++ u16 (length_of data') ++ data').
Inductive SameStream (lax : bool) : list N -> list N -> Prop :=
| SS_nil : SameStream lax [] []
| SS_cons rec rec' rest rest' : SameRecord lax rec rec' -> SameStream lax rest rest' -> SameStream lax (rec ++ rest) (rec' ++ rest').
