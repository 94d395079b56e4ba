(** Specification of alias resolution over a list of verified records (RFC 1034 3.6.2, RFC 6672). Only
    the record data types are used. *)
From Coq Require Import List NArith.
From Verif Require Import NameSpec RRM.
Import ListNotations.
Local Open Scope N_scope.

(** [x] is the first element of [l] with [P]. *)
Definition FirstOf {A} (P : A -> Prop) (l : list A) (x : A) : Prop :=
  exists a b, l = a ++ x :: b /\ P x /\ Forall (fun y => ~ P y) a.

Definition cname_at (n : list N) (r : RR) : Prop := exists c, r = RR_CName c /\ cn_name c = n.

Section Aliases.
  (** What a DNAME record with the given owner and target does to a name:
      [redirect name owner target result]. *)
  Variable redirect : list N -> list N -> list N -> list N -> Prop.
  Variable rrs : list RR.

  Definition dname_for (n : list N) (r : RR) : Prop :=
    exists d t, r = RR_DName d /\ redirect n (dn_name d) (dn_delegation d) t.

  (** One redirection: the first CNAME at the name or else the first DNAME for it. [AliasTooLong] is the
      failure of RFC 6672 2.2 (YXDOMAIN): the substituted name is not a name. *)
  Inductive Alias : list N -> list N -> Prop :=
  | Alias_cname n c : FirstOf (cname_at n) rrs (RR_CName c) -> Alias n (cn_canonical c)
  | Alias_dname n d t : ~ (exists r, In r rrs /\ cname_at n r) -> FirstOf (dname_for n) rrs (RR_DName d) ->
      redirect n (dn_name d) (dn_delegation d) t -> acceptable t -> Alias n t.
  Definition AliasTooLong (n : list N) : Prop :=
    ~ (exists r, In r rrs /\ cname_at n r) /\
    exists d t, FirstOf (dname_for n) rrs (RR_DName d) /\ redirect n (dn_name d) (dn_delegation d) t /\ ~ acceptable t.
  Definition Terminal (n : list N) : Prop := forall r, In r rrs -> ~ cname_at n r /\ ~ dname_for n r.

  (** [k] redirections. *)
  Inductive Aliases : nat -> list N -> list N -> Prop :=
  | Aliases_0 n : Aliases 0 n n
  | Aliases_S k n m m' : Alias n m -> Aliases k m m' -> Aliases (S k) n m'.

  (** The records which answer a question for [n]. *)
  Definition at_name (n : list N) : list RR :=
    filter (fun r => if list_eq_dec N.eq_dec (rr_name r) n then true else false) rrs.
  Definition Resolves (k : nat) (n : list N) (l : list RR) : Prop :=
    exists m, Aliases k n m /\ ((Terminal m /\ l = at_name m) \/ (AliasTooLong m /\ l = [])).
End Aliases.

(** On texts: the owner is a suffix and is replaced. *)
Definition redirect_text (n owner target t : list N) : Prop := exists p, n = p ++ owner /\ t = p ++ target.
(** RFC 6672 2.2: the name is strictly below the owner; the owner's labels are replaced. *)
Definition redirect_labels (n owner target t : list N) : Prop :=
  exists pre ls ls', pre <> [] /\ n = dotted (pre ++ ls) /\ owner = dotted ls /\ target = dotted ls' /\ t = dotted (pre ++ ls') /\
    Forall (fun l => l <> [] /\ label_ok l) (pre ++ ls ++ ls').
