(** Property C97: what the validator asks of the crypto library. [t_verify_rr_stream] is the validator
    with a log of its questions. *)
From Verif Require Import Base NameM WireM RRM SerM ValM RecSpec ValSpec ValW VisitW TraceM TraceSpec TraceP TraceW.
From Coq Require Import String PeanoNat.
Import List.ListNotations.
Local Open Scope N_scope.

(** C97. The log changes nothing. *)
Theorem C97_same : forall e dbg fuel inp, snd (t_verify_rr_stream e dbg fuel inp) = verify_rr_stream e dbg fuel inp.
Proof. exact same_run. Qed.
Print Assumptions C97_same.
(** A run visits zones and then searches for denials. In a visit there is at most one digest for each DNSKEY
    and DS record of the zone, then at most one signature check for its DNSKEYs and one for each RRSIG by
    the zone. There are not more searches than signature checks, and at most 5002 hashes in each. *)
Theorem C97_shape : forall e dbg fuel inp, SortsNeeds e ->
  exists vs ss, fst (t_verify_rr_stream e dbg fuel inp) = flat_map visit_events vs ++ flat_map search_events ss /\
    Forall (VisitBound inp) vs /\ Forall SearchBound ss /\ (List.length vs <= fuel)%nat /\ (List.length ss <= checks_of vs)%nat /\
    Forall (answered e) (fst (t_verify_rr_stream e dbg fuel inp)).
Proof. exact run_shape. Qed.
Print Assumptions C97_shape.
(** After a refused signature nothing is asked: there is at most one, and the run fails. *)
Theorem C97_stops : forall e dbg fuel inp pre ev post, SortsNeeds e ->
  fst (t_verify_rr_stream e dbg fuel inp) = pre ++ ev :: post -> refused ev -> post = [] /\ verify_rr_stream e dbg fuel inp = Err Invalid.
Proof. exact run_stops. Qed.
Print Assumptions C97_stops.
(** In all, linear in the number of RRSIGs if no zone is visited twice. *)
Theorem C97_checks : forall e dbg fuel inp, SortsNeeds e -> let evs := fst (t_verify_rr_stream e dbg fuel inp) in
  (List.length (visited evs) <= fuel /\ checks evs <= List.length (visited evs) * (1 + List.length (rrsigs inp)) /\
   (NoDup (visited evs) -> checks evs <= List.length (visited evs) + List.length (rrsigs inp)))%nat.
Proof. exact run_checks. Qed.
Print Assumptions C97_checks.
(** Without that, it need not be: [n] nested zones, about [n * n / 2] records (C55), [2 ^ n] checks. *)
Theorem C97_exponential : forall n fuel, (1 <= n <= 127)%nat -> (2 ^ n <= fuel)%nat ->
  (2 ^ n <= checks (fst (t_verify_rr_stream toy_env false fuel (nest n))))%nat.
Proof. exact nest_checks. Qed.
Print Assumptions C97_exponential.
(** The digests are not linear in the number of records: the product is reached. *)
Theorem C97_product : forall n m, (1 <= n)%nat -> Forall Held (product n m) /\ List.length (product n m) = (4 + n + m)%nat /\
  hashes (fst (t_verify_rr_stream toy_env false 2 (product n m))) = (1 + n * m)%nat.
Proof. exact product_reached. Qed.
Print Assumptions C97_product.
Theorem C97_linear_refuted : ~ (exists c, forall e fuel inp, SortsNeeds e -> Forall Held inp ->
  (hashes (fst (t_verify_rr_stream e false fuel inp)) <= c * (1 + fuel) * List.length inp)%nat).
Proof. exact linear_refuted. Qed.
Print Assumptions C97_linear_refuted.

(** Three signatures, the second of them refused. *)
Example C97_example_refused : exists h a b, fst (t_verify_rr_stream picky_env false 10 three) = [E_Zone [46]; h; a; b] /\
  is_hash h /\ is_check a /\ ~ refused a /\ refused b /\ verify_rr_stream picky_env false 10 three = Err Invalid.
Proof. exact three_trace. Qed.
(** A run with two zones and a denial by NSEC: five checks, one search, two digests. *)
Example C97_example : let evs := fst (t_verify_rr_stream toy_env false 10 w_wild) in
  visited evs = [bs "."; bs "a."] /\ checks evs = 5%nat /\ hashes evs = 2%nat /\ List.length (rrsigs w_wild) = 5%nat /\
  (exists v, verify_rr_stream toy_env false 10 w_wild = Ok v /\ vr_rrs v = [w_a "x.a."]).
Proof. cbv zeta. split; [vm_compute; reflexivity |]. split; [vm_compute; reflexivity |]. split; [vm_compute; reflexivity |]. split; [reflexivity |]. eexists. split; vm_compute; reflexivity. Qed.
Example C97_example_product : hashes (fst (t_verify_rr_stream toy_env false 2 (product 5 7))) = 36%nat.
Proof. vm_compute. reflexivity. Qed.
