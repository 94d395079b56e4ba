(** Specification of DNS messages (RFC 1035 4.1, RFC 4035, RFC 6891) and of a proof builder's run.
    Of the model, only the record types and, for the run, the function [process_response] are used. *)
From Coq Require Import List NArith.
From Verif Require Import Base NameSpec WireSpec RRM SerM RecSpec ValSpec QueryM.
Import ListNotations.
Local Open Scope N_scope.

(** ** Messages *)

(** The query for [n] and [ty]: id 0, RD and AD, one question of class IN, one OPT record with DO. *)
Definition Query (n : list N) (ty : N) (b : list N) : Prop :=
  exists ls, LabelsOf n ls /\
    b = [0; 0; 1; 32; 0; 1; 0; 0; 0; 0; 0; 1] ++ (wire_name ls ++ u16 ty ++ [0; 1]) ++ [0; 0; 41; 0; 0; 0; 0; 128; 0; 0; 0].

(** The fields of the flags word. *)
Definition flag_qr (f : N) : N := f / 32768.
Definition flag_opcode (f : N) : N := (f / 2048) mod 16.
Definition flag_tc (f : N) : N := (f / 512) mod 2.
Definition flag_ad (f : N) : N := (f / 32) mod 2.
Definition flag_rcode (f : N) : N := f mod 16.

(** Consecutive records with their TTLs, in the packet [pkt]. *)
Inductive Records (lax : bool) (pkt : list N) : list N -> list (RR * N) -> Prop :=
| Records_nil : Records lax pkt [] []
| Records_cons rec r ttl b l : RecordEnc (NameIn pkt) lax rec r ttl -> Records lax pkt b l ->
    Records lax pkt (rec ++ b) ((r, ttl) :: l).

(** A message with id 0 and one question: its flags, answers and authority records. *)
Inductive Message (lax : bool) (m : list N) : N -> list (RR * N) -> list (RR * N) -> Prop :=
| Message_intro f extra nb n qty qcl ab ans ub auth rest :
    m = u16 0 ++ u16 f ++ u16 1 ++ u16 (N.of_nat (length ans)) ++ u16 (N.of_nat (length auth)) ++ u16 extra
        ++ nb ++ u16 qty ++ u16 qcl ++ ab ++ ub ++ rest ->
    NameIn m nb n -> Records lax m ab ans -> Records lax m ub auth ->
    Message lax m f ans auth.

(** NSEC and NSEC3 records and signatures over them. *)
Definition denial_record (r : RR) : bool :=
  match r with
  | RR_NSec _ | RR_NSec3 _ => true
  | RR_RRSig s => (rs_ty s =? 47) || (rs_ty s =? 50)
  | _ => false
  end.
(** What a response contributes to a proof. *)
Definition contribution (ans auth : list (RR * N)) : list (RR * N) :=
  ans ++ filter (fun rt => denial_record (fst rt)) auth.

Definition signer_of (rt : RR * N) : list (list N) := match fst rt with RR_RRSig s => [rs_key_name s] | _ => [] end.

(** A response which is accepted (in a build where [lax]) and the records it contributes. *)
Definition Response (lax : bool) (m : list N) (items : list (RR * N)) : Prop :=
  exists f ans auth, Message lax m f ans auth /\
    flag_qr f = 1 /\ flag_opcode f = 0 /\ flag_tc f = 0 /\ flag_ad f = 1 /\ (flag_rcode f = 0 \/ flag_rcode f = 8) /\
    ans <> [] /\ items = contribution ans auth.

(** No record of the packet starts here. *)
Definition NoRecord (lax : bool) (m tail : list N) : Prop :=
  forall rec r ttl rest, tail = rec ++ rest -> ~ RecordEnc (NameIn m) lax rec r ttl.
(** A response which is fine up to some record, and what it would contribute up to there. *)
Definition Left (lax : bool) (m : list N) (items : list (RR * N)) : Prop :=
  exists f an au extra nb n qty qcl b l tail,
    m = u16 0 ++ u16 f ++ u16 1 ++ u16 (N.of_nat an) ++ u16 (N.of_nat au) ++ u16 extra ++ nb ++ u16 qty ++ u16 qcl ++ b ++ tail /\
    NameIn m nb n /\ flag_qr f = 1 /\ flag_opcode f = 0 /\ flag_tc f = 0 /\ flag_ad f = 1 /\ (flag_rcode f = 0 \/ flag_rcode f = 8) /\
    an <> O /\ Records lax m b l /\ (length l < an + au)%nat /\ NoRecord lax m tail /\
    items = contribution (firstn an l) (skipn an l).

(** ** Runs of the builder *)

(** A sequence of calls of [process_response], with their results. *)
Inductive Calls (dbg : bool) : builder -> list (list N * outcome unit (list qbuf)) -> builder -> Prop :=
| Calls_nil b : Calls dbg b [] b
| Calls_snoc b tr b1 m r b2 : Calls dbg b tr b1 -> process_response dbg b1 m = (r, b2) -> r <> Panic -> r <> Loop ->
    Calls dbg b (tr ++ [(m, r)]) b2.
(** ... each made while [awaiting_responses] is true. *)
Inductive Driven (dbg : bool) : builder -> list (list N * outcome unit (list qbuf)) -> builder -> Prop :=
| Driven_nil b : Driven dbg b [] b
| Driven_snoc b tr b1 m r b2 : Driven dbg b tr b1 -> awaiting_responses b1 = true ->
    process_response dbg b1 m = (r, b2) -> r <> Panic -> r <> Loop -> Driven dbg b (tr ++ [(m, r)]) b2.

Definition is_ok {E A} (r : outcome E A) : bool := match r with Ok _ => true | _ => false end.
(** The accepted responses, and the queries handed out, in order. *)
Definition accepted (tr : list (list N * outcome unit (list qbuf))) : list (list N) :=
  map fst (filter (fun c => is_ok (snd c)) tr).
Definition handed (tr : list (list N * outcome unit (list qbuf))) : list qbuf :=
  flat_map (fun c => match snd c with Ok qs => qs | _ => [] end) tr.

(** The names which signed an RRSIG in an accepted response. *)
Definition Signer (lax : bool) (tr : list (list N * outcome unit (list qbuf))) (k : list N) : Prop :=
  exists m items rt, In m (accepted tr) /\ Response lax m items /\ In rt items /\ In k (signer_of rt).

(** The number of queries needed for the signers [keys]: the first one, and per signer a DNSKEY query
    and, unless it is the root, a DS query. *)
Definition key_types (k : list N) : list N := if list_eq_dec N.eq_dec k [46] then [48] else [48; 43].
Definition needed (keys : list (list N)) : nat := 1 + length (flat_map key_types keys).

(** ** Responses on which the code panics *)

(** A record whose RDATA, with the signer's name written out, is longer than an RDLENGTH can say. *)
Definition oversized (r : RR) : Prop :=
  exists s, r = RR_RRSig s /\ 65535 < 18 + name_octets (rs_key_name s) + length_of (rs_signature s).
(** An acceptable header and some readable records, followed within the announced number of records by
    one whose RDATA panics the parser, or (debug builds) containing an oversized one. *)
Definition BadResponse (dbg : bool) (m : list N) : Prop :=
  exists f an au extra nb n qty qcl b l tail,
    m = u16 0 ++ u16 f ++ u16 1 ++ u16 (N.of_nat an) ++ u16 (N.of_nat au) ++ u16 extra ++ nb ++ u16 qty ++ u16 qcl ++ b ++ tail /\
    NameIn m nb n /\ flag_qr f = 1 /\ flag_opcode f = 0 /\ flag_tc f = 0 /\ flag_ad f = 1 /\ (flag_rcode f = 0 \/ flag_rcode f = 8) /\
    an <> O /\ Records (negb dbg) m b l /\ (length l <= an + au)%nat /\
    ((length l < an + au)%nat /\ (exists rec rest, tail = rec ++ rest /\ BadRecord (NameIn m) dbg rec) \/
     dbg = true /\ exists rt, oversized (fst rt) /\ (In rt (firstn an l) \/ In rt (skipn an l) /\ denial_record (fst rt) = true)).

(** ** Framing (RFC 1035 4.2.2) *)
Definition frame (m : list N) : list N := u16 (length_of m) ++ m.

(** [Reads segs ms segs']: successive [read_response] calls on the segments [segs] return [ms]. *)
Inductive Reads : list (list N) -> list (list N) -> list (list N) -> Prop :=
| Reads_nil segs : Reads segs [] segs
| Reads_cons segs q s1 ms s2 : read_response segs = Some (q, s1) -> Reads s1 ms s2 -> Reads segs (qb_deref q :: ms) s2.

(** ** Finished proofs *)

(** If all responses were accepted and all records they contributed satisfy [Q], the finished proof
    parses to exactly these records. *)
Definition ParsesBack (Q : RR -> Prop) : Prop :=
  forall dbg n ty b0 q0 tr b proof ttl itemss, builder_new n ty = Ok (b0, q0) -> Calls dbg b0 tr b ->
    Forall (fun c => is_bytes (fst c) /\ length_of (fst c) <= 65535) tr ->
    finish_proof b = Ok (proof, ttl) -> Forall (fun c => is_ok (snd c) = true) tr ->
    Forall2 (Response (negb dbg)) (map fst tr) itemss -> Forall Q (map fst (concat itemss)) ->
    forall dbg', parse_rr_stream dbg' proof = Ok (map fst (concat itemss)).
