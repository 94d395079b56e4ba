(** Specification of a lookup: where the aliases among the RRsets of an answer lead, by the rules of RFC 1034 and
    RFC 6672, and what should be found there. *)
From Coq Require Import List NArith Permutation.
From Verif Require Import Base RRM SerM ValM NameSpec RecSpec ValSpec ResolveSpec QueryM QuerySpec LiveSpec.
Import ListNotations.
Local Open Scope N_scope.

Section Chains.
  Variable answers : list rset.
  Definition HasRec (r : RR) : Prop := exists a, In a answers /\ In r (an_recs a).
  Inductive Step : list N -> list N -> Prop :=
  | Step_cname c : HasRec (RR_CName c) -> Step (cn_name c) (cn_canonical c)
  | Step_dname n d t : (forall c, HasRec (RR_CName c) -> cn_name c <> n) -> HasRec (RR_DName d) ->
      redirect_labels n (dn_name d) (dn_delegation d) t -> Step n t.
  Inductive Steps : nat -> list N -> list N -> Prop :=
  | Steps_0 n : Steps 0 n n
  | Steps_S k n x t : Steps k n x -> Step x t -> Steps (S k) n t.
  (** The aliases lead from [n] to [m], where there are no more, in one way and by names. *)
  Record Chain (n m : list N) : Prop := {
    ch_path : exists k, Steps k n m;
    ch_end : forall t, ~ Step m t;
    ch_one : forall k x t t', Steps k n x -> Step x t -> Step x t' -> t = t';
    ch_names : forall k x t, Steps k n x -> Step x t -> acceptable t }.
  (** On the way, no name is the owner of a DNAME, or ends like one but within a label. *)
  Definition Aligned (n : list N) : Prop :=
    forall k x d p, Steps k n x -> HasRec (RR_DName d) -> x = p ++ dn_name d -> exists q, p = q ++ [46].
  (** No DNAME is for or to the root. *)
  Definition NoRootDname : Prop := forall d, HasRec (RR_DName d) -> dn_name d <> [46] /\ dn_delegation d <> [46].
End Chains.

(** Asking the resolver for a proof of [n], [ty] and the proof for [n] gives the records at [m]. *)
Definition Finds (e : env) (dbg : bool) (zones : list zone) (answers : list rset) (n : list N) (ty : N) (resp : list N -> N -> list N) (m : list N) : Prop :=
  exists qs sent, Permutation qs (questions n ty (map zn_name zones)) /\
    Forall2 (fun q f => exists b, Query (fst q) (snd q) b /\ f = frame b) qs sent /\
    forall segs rest, concat segs = flat_map frame (map (fun q => resp (fst q) (snd q)) qs) ++ rest ->
    exists proof ttl, build_proof dbg 10 n ty segs = (Ok (proof, ttl), sent) /\
    forall dbg', exists inp fuel v k l, parse_rr_stream dbg' proof = Ok inp /\ verify_rr_stream e dbg' fuel inp = Ok v /\
      resolve_name (vr_rrs v) k n = Ok l /\
      forall r, In r l <-> exists a, In a answers /\ In r (an_recs a) /\ an_name a = m /\ an_ty a <> 47 /\ an_ty a <> 50.
