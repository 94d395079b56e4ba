(** Property C64: with a resolver which answers and zones which are correctly signed, a proof is built, and it validates. *)
From Verif Require Import Base NameM WireM RRM SerM ValM NameSpec RecSpec ValSpec QueryM QuerySpec AcceptSpec ValW OrderW LiveSpec LiveP LiveP3 LiveW LiveW2.
From Coq Require Import String Permutation.
Local Open Scope N_scope.

(** The driver: if the resolver answers all questions that come up, and at most ten do, exactly these are sent, each once; with
    the responses in the order of the questions the proof is the records of all of them, and its TTL the least.
    It never waits for a response to a question not sent: while responses are missing, more questions have been sent than responses read. *)
Theorem C64_built : forall data dbg n ty resp keys, name_try_from n = Some n -> ty < 65536 -> Answers data dbg n ty resp ->
  AllSigners data n ty keys -> (needed keys <= 10)%nat ->
  exists qs sent, Permutation qs (questions n ty keys) /\ hd_error qs = Some (n, ty) /\
    Forall2 (fun q f => exists b, Query (fst q) (snd q) b /\ f = frame b) qs sent /\
    (forall segs rest, List.concat segs = flat_map frame (map (fun q => resp (fst q) (snd q)) qs) ++ rest ->
      exists ttl, build_proof dbg 10 n ty segs = (Ok (flat_map (fun rt => write_rr (fst rt) (snd rt)) (flat_map (fun q => data (fst q) (snd q)) qs), ttl), sent) /\
        is_min ttl (map snd (flat_map (fun q => data (fst q) (snd q)) qs))) /\
    (forall i segs, (i < List.length qs)%nat -> List.concat segs = flat_map frame (map (fun q => resp (fst q) (snd q)) (firstn i qs)) ->
      exists s1 s2, sent = s1 ++ s2 /\ build_proof dbg 10 n ty segs = (Err tt, s1) /\ (i < List.length s1)%nat).
Proof. exact live_built. Qed.
Print Assumptions C64_built.

(** End to end. [WellSigned]: a tree of zones, with the root trust anchors at the top, in which every RRset of the answer is
    signed; [Serves]: the resolver has their records, and possibly unsigned ones; [Works]: the proof is built, read back, and validates with exactly the answer. *)
Theorem C64_validates_partial : forall e dbg zones answers n ty data resp, name_try_from n = Some n -> ty < 65536 -> ty <> 43 /\ ty <> 48 -> SortsNeeds e ->
  WellSigned e zones answers (FirstVouched e) -> Serves zones answers n ty data -> Answers data dbg n ty resp ->
  (forall m t rt, Asked data n ty m t -> In rt (data m t) -> wf_rr (fst rt)) -> (List.length zones <= 5)%nat ->
  Works e dbg zones answers n ty resp.
Proof. exact live_verified. Qed.
Print Assumptions C64_validates_partial.
(** Missing: deeper trees. *)
Theorem C64_zones_refuted : ~ (forall e dbg zones answers n ty data resp, name_try_from n = Some n -> ty < 65536 -> ty <> 43 /\ ty <> 48 -> SortsNeeds e ->
  WellSigned e zones answers (FirstVouched e) -> Serves zones answers n ty data -> Answers data dbg n ty resp ->
  (forall m t rt, Asked data n ty m t -> In rt (data m t) -> wf_rr (fst rt)) -> Works e dbg zones answers n ty resp).
Proof. exact six_zones_refuted. Qed.
Print Assumptions C64_zones_refuted.
(** Missing: DNSKEYs signed correctly with several keys of which the DS record names one (as RFC 4035 2.2 allows), if the
    RRSIG with this key is not the first. *)
Theorem C64_key_order_refuted : ~ (forall e dbg zones answers n ty data resp, name_try_from n = Some n -> ty < 65536 -> ty <> 43 /\ ty <> 48 -> SortsNeeds e ->
  WellSigned e zones answers (SomeVouched e) -> Serves zones answers n ty data -> Answers data dbg n ty resp ->
  (forall m t rt, Asked data n ty m t -> In rt (data m t) -> wf_rr (fst rt)) -> (List.length zones <= 5)%nat -> Works e dbg zones answers n ty resp).
Proof. exact key_order_refuted. Qed.
Print Assumptions C64_key_order_refuted.

(** x.a. A from a wildcard of a., with an NSEC record. *)
Example C64_example :
  WellSigned echo_env l_small l_wild (FirstVouched echo_env) /\
  Serves l_small l_wild (bs "x.a.") 1 (l_data l_small l_wild (bs "x.a.") 1) /\
  Answers (l_data l_small l_wild (bs "x.a.") 1) false (bs "x.a.") 1 (l_resp l_small l_wild (bs "x.a.") 1) /\
  Works echo_env false l_small l_wild (bs "x.a.") 1 (l_resp l_small l_wild (bs "x.a.") 1).
Proof.
  split; [exact small_signed |]. split; [exact small_serves |]. split; [exact (proj1 small_answers) |].
  apply (live_verified echo_env false l_small l_wild (bs "x.a.") 1 (l_data l_small l_wild (bs "x.a.") 1)); [vm_compute; reflexivity | vm_compute; reflexivity | split; discriminate | exact echo_sorts
    | exact small_signed | exact small_serves | exact (proj1 small_answers) | exact (proj2 small_answers) | apply PeanoNat.Nat.leb_le; reflexivity].
Qed.
