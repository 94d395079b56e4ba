(** Property C90: what can be changed in a stream of records unnoticed. *)
From Verif Require Import Base NameSpec WireSpec RecSpec RRM SerM ValM JsonM AlikeSpec AlikeP AlikeW.
Local Open Scope N_scope.

(** C90. A stream means the same records as one which can be parsed if and only if they differ only in TTLs, the case of letters
    of names, the cutting of TXT data into strings, the form of type bitmaps, the place of dots in labels, and, without debug
    assertions, octets after the name in NS, CNAME and DNAME records. *)
Theorem C90_exact : forall dbg inp inp' rs, is_bytes inp -> is_bytes inp' -> parse_rr_stream dbg inp = Ok rs ->
  (parse_rr_stream dbg inp' = Ok rs <-> SameStream (negb dbg) inp inp').
Proof. exact alike_exact. Qed.
Print Assumptions C90_exact.
(** So these differences are of no account to a verifier. *)
Theorem C90_verdict : forall e dbg fuel inp inp' rs, is_bytes inp -> is_bytes inp' -> parse_rr_stream dbg inp = Ok rs -> SameStream (negb dbg) inp inp' ->
  verify_byte_stream e dbg fuel inp' = verify_byte_stream e dbg fuel inp.
Proof. exact alike_verdict. Qed.
Print Assumptions C90_verdict.
(** In particular the labels of a name are not told apart. *)
Theorem C90_labels_refuted : ~ (forall dbg ls ls' tail rs, is_bytes (wire_name ls ++ tail) -> is_bytes (wire_name ls' ++ tail) ->
  Forall (fun l => (1 <= length l <= 63)%nat) ls -> Forall (fun l => (1 <= length l <= 63)%nat) ls' ->
  parse_rr_stream dbg (wire_name ls ++ tail) = Ok rs -> parse_rr_stream dbg (wire_name ls' ++ tail) = Ok rs -> map lower ls = map lower ls').
Proof. exact labels_refuted. Qed.
Print Assumptions C90_labels_refuted.
(** A TXT and an NSEC record, with all these differences. *)
Example C90_example : is_bytes k_one /\ is_bytes k_two /\ parse_rr_stream true k_one = Ok k_rrs /\ map rr_ty k_rrs = [16; 47] /\ SameStream false k_one k_two /\ k_one <> k_two.
Proof. exact (conj k_one_bytes (conj k_two_bytes (conj k_one_rrs (conj (proj2 k_texts) (conj (k_same false) k_differ))))). Qed.
