(** Properties C33-C35: [VerifiedRRStream::resolve_name]. *)
From Verif Require Import Base NameM NameSpec RRM ValM RecSpec ValSpec ResolveSpec ResolveP ResolveW ValW.
From Coq Require Import String PeanoNat.
Local Open Scope N_scope.

(** C33. [fuel] is a bound on the loop's iterations; the number of redirections is [k]. *)
Theorem C33_resolves : forall rrs, Forall Held rrs -> forall fuel n l, name_try_from n = Some n ->
  (resolve_name rrs fuel n = Ok l <-> exists k, (k < fuel)%nat /\ Resolves redirect_text rrs k n l).
Proof. exact resolve_spec. Qed.
Print Assumptions C33_resolves.
(** There is no other outcome than a result and running on: the [expect] cannot fail. *)
Theorem C33_no_panic : forall rrs, Forall Held rrs -> forall fuel n, name_try_from n = Some n ->
  (exists l, resolve_name rrs fuel n = Ok l) \/ resolve_name rrs fuel n = Loop.
Proof. exact resolve_outcome. Qed.
Print Assumptions C33_no_panic.
(** A DNAME, then a CNAME; and a substitution which gets too long. *)
Example C33_example :
  resolve_name [w_a "x.b."; w_dname "a." "b."; w_a "y.b."; w_cname "x.b." "y.b."] 5 (bs "x.a.") = Ok [w_a "y.b."] /\
  resolve_name [w_dname "b." (String.concat "" (repeat "abc.abc.abc.abc." 15))%string] 5 (bs "x.y.z.w.x.y.z.w.b.") = Ok [].
Proof. split; vm_compute; reflexivity. Qed.

(** C34. It terminates (within a fixed number of redirections) exactly when no name is reached twice. *)
Theorem C34_terminates_partial : forall rrs, Forall Held rrs -> forall n bound, name_try_from n = Some n -> (257 ^ 255 <= bound)%nat ->
  (resolve_name rrs (S bound) n <> Loop <->
   forall k a m, Aliases redirect_text rrs k n m -> ~ Aliases redirect_text rrs (S a) m m).
Proof. exact resolve_terminates. Qed.
Print Assumptions C34_terminates_partial.
(** Missing: verified alias loops. *)
Theorem C34_terminates_refuted : ~ (forall e fuel inp v n, Forall Held inp -> verify_rr_stream e false fuel inp = Ok v ->
  name_try_from n = Some n -> exists k, resolve_name (vr_rrs v) k n <> Loop).
Proof. exact resolve_terminates_refuted. Qed.
Print Assumptions C34_terminates_refuted.
Example C34_example : (exists v, run w_cname_loop = Ok v /\ vr_rrs v = [w_cname "x.a." "x.a."]) /\
  (forall k, resolve_name [w_cname "x.a." "y.a."; w_cname "y.a." "x.a."] (S (S k)) (bs "x.a.") =
             resolve_name [w_cname "x.a." "y.a."; w_cname "y.a." "x.a."] k (bs "x.a.")).
Proof. split; [exact cname_loop_ok|intros; reflexivity]. Qed.

(** C35. When every DNAME owner found as a textual suffix of a visited name is preceded by a dot, and no
    DNAME is from or to the root, the result is that of RFC 6672. *)
Theorem C35_dname_partial : forall rrs, Forall (typed_rr proper_name) rrs ->
  (forall d, In (RR_DName d) rrs -> dn_name d <> [46] /\ dn_delegation d <> [46]) ->
  forall fuel n l, proper_name n ->
  (forall k m, Aliases redirect_text rrs k n m -> forall d p, In (RR_DName d) rrs -> m = p ++ dn_name d -> exists q, p = q ++ [46]) ->
  resolve_name rrs fuel n = Ok l -> exists k, Resolves redirect_labels rrs k n l.
Proof. exact resolve_aligned. Qed.
Print Assumptions C35_dname_partial.
(** Missing: the code redirects the DNAME's own owner ... *)
Theorem C35_own_owner_refuted : ~ (forall e fuel inp v n k l, Forall Held inp -> verify_rr_stream e false fuel inp = Ok v ->
  proper_name n -> resolve_name (vr_rrs v) k n = Ok l -> exists j, Resolves redirect_labels (vr_rrs v) j n l).
Proof. exact dname_self_refuted. Qed.
Print Assumptions C35_own_owner_refuted.
(** ... and names which only end in the owner's text. *)
Theorem C35_sibling_refuted : ~ (forall e fuel inp v n k l, Forall Held inp -> verify_rr_stream e false fuel inp = Ok v ->
  proper_name n -> (forall r, In r (vr_rrs v) -> rr_name r <> n) ->
  resolve_name (vr_rrs v) k n = Ok l -> exists j, Resolves redirect_labels (vr_rrs v) j n l).
Proof. exact dname_sibling_refuted. Qed.
Print Assumptions C35_sibling_refuted.
Example C35_example :
  let rrs := [w_dname "a." "b."; w_a "x.b."; w_a "b."; w_a "xb."] in
  resolve_name rrs 3 (bs "x.a.") = Ok [w_a "x.b."] /\ resolve_name rrs 3 (bs "a.") = Ok [w_a "b."] /\
  resolve_name rrs 3 (bs "xa.") = Ok [w_a "xb."].
Proof. cbv zeta. split; [|split]; vm_compute; reflexivity. Qed.
