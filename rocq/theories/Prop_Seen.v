(** C72: what a JavaScript caller of [lookup_doh] is told. *)
From Coq Require Import List NArith String.
From Verif Require Import Base NameSpec RecSpec CodecSpec RRM ValM ValSpec JsonSpec DohM DohSpec SecSpec AnswerSpec SeenSpec SeenP SeenP2 WildW SeenW.
Import ListNotations.
Local Open Scope N_scope.

(** If the text of the promise reads as a result [V], then it is, with the escapes undone, a result [v] of the validator, with the
    times and the TTL of [v]; and every RRset of it is as published (C23) - if all who have a say about any spelling of its name are honest. *)
Theorem C72_published_partial : forall e KeyOf Honest Signed dbg fuel reparse trap fetch endpoint k domain ty s urls j V,
  World e KeyOf Honest Signed -> Reformats reparse -> (forall i u b, fetch i u = Body b -> is_bytes b) -> (11 <= k)%nat ->
  lookup_doh e dbg fuel reparse trap fetch endpoint k domain (TyText ty) = (JText s, urls) -> Json s j -> DescribesResult V j -> Forall Held (vr_rrs V) ->
  exists v, vr_valid_from V = vr_valid_from v /\ vr_expires V = vr_expires v /\ vr_max_cache_ttl V = vr_max_cache_ttl v /\
    Forall2 (fun r0 r => Spelled r0 r /\ ((forall raw, Str raw (rr_name r) -> InGoodHands Honest raw) -> exists z p, rr_name r0 = p ++ z /\ proper_name z /\ Published Signed z v r0)) (vr_rrs v) (vr_rrs V).
Proof. exact seen_published. Qed.
Print Assumptions C72_published_partial.
(** Where there is no backslash nothing is changed. *)
Theorem C72_plain : forall r0 r, Spelled r0 r -> no_backslash r0 -> r = r0.
Proof. exact spelled_plain. Qed.
Print Assumptions C72_plain.
(** It is not enough that those who have a say about the name as it is shown are honest: a zone named \u0061. answers for a. *)
Theorem C72_published_refuted : ~ (forall e KeyOf Honest Signed dbg fuel reparse trap fetch endpoint k domain ty s urls j V r,
  World e KeyOf Honest Signed -> Reformats reparse -> (forall i u b, fetch i u = Body b -> is_bytes b) -> (11 <= k)%nat ->
  lookup_doh e dbg fuel reparse trap fetch endpoint k domain (TyText ty) = (JText s, urls) -> Json s j -> DescribesResult V j -> Forall Held (vr_rrs V) ->
  In r (vr_rrs V) -> InGoodHands Honest (rr_name r) -> exists z v, Published Signed z v r).
Proof. exact seen_refuted. Qed.
Print Assumptions C72_published_refuted.
Example ex_C72 : exists s urls j, World (t_env (k_table "a.")) (t_keys (k_table "a.")) (fun _ => True) (t_signed (k_table "a.")) /\ Reformats Some /\
  (forall i u b, k_fetch "a." i u = Body b -> is_bytes b) /\ k_lookup "a." = (JText s, urls) /\ Json s j /\ DescribesResult (k_result "a.") j /\ Forall Held (vr_rrs (k_result "a.")).
Proof. exact seen_example. Qed.
