(** Properties C40-C45, C54, C57: the proof builder and its driver. *)
From Verif Require Import Base NameM NameSpec WireM WireSpec RRM SerM RecSpec ValSpec ValM QueryM QuerySpec QBufP QueryP QueryP2 QueryP3 QueryP4 LeftP ValW QueryW.
From Coq Require Import String.
Local Open Scope N_scope.

(** C40. [Calls]: any calls of [process_response]; [Driven]: calls made while [awaiting_responses]. *)
Theorem C40_queries : forall dbg n ty b0 q0 tr b, builder_new n ty = Ok (b0, q0) -> Calls dbg b0 tr b ->
  Forall (fun c => is_bytes (fst c)) tr -> (List.length (q0 :: handed tr) <= 10)%nat.
Proof. exact handed_bound. Qed.
Print Assumptions C40_queries.
Theorem C40_responses : forall dbg n ty b0 q0 tr b, builder_new n ty = Ok (b0, q0) -> Driven dbg b0 tr b ->
  Forall (fun c => is_bytes (fst c)) tr -> (List.length (accepted tr) <= 10)%nat.
Proof. exact driven_bound. Qed.
Print Assumptions C40_responses.
(** [build_proof] makes at most ten iterations. *)
Theorem C40_terminates : forall dbg n ty segs, name_try_from n = Some n -> ty < 65536 -> is_bytes (List.concat segs) ->
  fst (build_proof dbg 10 n ty segs) <> Loop.
Proof. exact build_terminates. Qed.
Print Assumptions C40_terminates.
(** Four signers fit the budget, five do not. *)
Example C40_example :
  (let st := exec false builder_init [signers [97; 98; 99; 97; 100]] in
   List.length (handed (fst st)) = 8%nat /\ awaiting_responses (snd st) = true) /\
  (let st := exec false builder_init [signers [97; 98; 99; 101; 100]] in
   List.length (handed (fst st)) = 0%nat /\ awaiting_responses (snd st) = false /\ finish_proof (snd st) = Err tt).
Proof. checks. Qed.

(** C41. [keys] are the signers of the RRSIGs of the accepted responses. The queries handed out are, in this order,
    those for the keys ... *)
Theorem C41_queries_partial : forall dbg n ty b0 q0 tr b, builder_new n ty = Ok (b0, q0) -> Calls dbg b0 tr b ->
  Forall (fun c => is_bytes (fst c)) tr ->
  exists keys, NoDup keys /\ (forall k, In k keys <-> Signer (negb dbg) tr k) /\
    ((needed keys <= 10)%nat ->
     Forall2 (fun kt q => Query (fst kt) (snd kt) (qb_deref q)) (flat_map (fun k => map (pair k) (key_types k)) keys) (handed tr)).
Proof. exact builder_queries. Qed.
Print Assumptions C41_queries_partial.
(** ... so a finished proof's signers were queried for, whatever was rejected on the way. *)
Theorem C41_signers_queried_partial : forall dbg n ty b0 q0 tr b res k qty, builder_new n ty = Ok (b0, q0) -> Calls dbg b0 tr b ->
  Forall (fun c => is_bytes (fst c)) tr -> finish_proof b = Ok res -> Signer (negb dbg) tr k -> In qty (key_types k) ->
  exists q, In q (handed tr) /\ Query k qty (qb_deref q).
Proof. exact signer_queried. Qed.
Print Assumptions C41_signers_queried_partial.
(** Missing in C41: RRSIGs which a rejected response left in the proof. *)
Theorem C41_signers_queried_refuted : ~ (forall dbg n ty b0 q0 tr b proof ttl rs s, builder_new n ty = Ok (b0, q0) -> Calls dbg b0 tr b ->
  Forall (fun c => is_bytes (fst c)) tr -> finish_proof b = Ok (proof, ttl) -> parse_rr_stream false proof = Ok rs ->
  In (RR_RRSig s) rs -> exists q, In q (q0 :: handed tr) /\ Query (rs_key_name s) 48 (qb_deref q)).
Proof. exact unqueried_refuted. Qed.
Print Assumptions C41_signers_queried_refuted.
(** C42. [needed keys] is 1 plus one or two per key. *)
Theorem C42_finish : forall dbg n ty b0 q0 tr b, builder_new n ty = Ok (b0, q0) -> Calls dbg b0 tr b ->
  Forall (fun c => is_bytes (fst c)) tr ->
  exists keys, NoDup keys /\ (forall k, In k keys <-> Signer (negb dbg) tr k) /\
    (awaiting_responses b = true <-> (List.length (accepted tr) < needed keys)%nat /\ (needed keys <= 10)%nat) /\
    ((exists res, finish_proof b = Ok res) <-> (List.length (accepted tr) = needed keys)%nat /\ (needed keys <= 10)%nat) /\
    (List.length (accepted tr) <= needed keys)%nat.
Proof. exact builder_finish. Qed.
Print Assumptions C42_finish.
(** A signer a., then its DNSKEY and DS: queries for a. DNSKEY and a. DS, and no others. *)
Example C42_example :
  let st := exec false builder_init [signers [97; 97]; signers [97]] in
  map (fun q => qb_deref q) (handed (fst st)) = map (fun ty => match build_query (bs "a.") ty with Ok q => qb_deref q | _ => [] end) [48; 43] /\
  awaiting_responses (snd st) = true /\ finish_proof (snd st) = Err tt /\
  is_ok (finish_proof (snd (exec false builder_init [signers [97; 97]; signers [97]; signers [97]]))) = true.
Proof. checks. Qed.

(** C43. [wf_rr]: the names have no empty labels, the RDATA fits its length fields, and it is not an empty TXT. *)
Theorem C43_parses_back_partial : ParsesBack wf_rr.
Proof. exact parses_back. Qed.
Print Assumptions C43_parses_back_partial.
(** Missing: each of the three conditions is needed. *)
Theorem C43_empty_label_refuted : ~ ParsesBack (fun r => Held r /\ fits_rr r /\ nonempty_txt r).
Proof. exact empty_label_back_refuted. Qed.
Print Assumptions C43_empty_label_refuted.
Theorem C43_oversized_refuted : ~ ParsesBack (fun r => typed_rr proper_name r /\ nonempty_txt r).
Proof. exact big_back_refuted. Qed.
Print Assumptions C43_oversized_refuted.
Theorem C43_empty_txt_refuted : ~ ParsesBack (fun r => typed_rr proper_name r /\ fits_rr r).
Proof. exact empty_txt_back_refuted. Qed.
Print Assumptions C43_empty_txt_refuted.
Example C43_example :
  match finished [q_msg q_ok 2 1 (q_a 60 ++ q_a 9 ++ q_rec [0] 47 62 [0; 0; 1; 64])] with
  | Ok (proof, ttl) => ttl = 9 /\ parse_rr_stream false proof = Ok [w_a "x."; w_a "x."; w_nsec "." "." [1]]
  | _ => False
  end.
Proof. vm_compute. split; reflexivity. Qed.

(** C44. *)
Theorem C44_ttl_partial : forall dbg n ty b0 q0 tr b proof ttl, builder_new n ty = Ok (b0, q0) -> Calls dbg b0 tr b ->
  Forall (fun c => is_bytes (fst c)) tr -> finish_proof b = Ok (proof, ttl) -> Forall (fun c => is_ok (snd c) = true) tr ->
  exists itemss, Forall2 (Response (negb dbg)) (map fst tr) itemss /\
    proof = flat_map (fun rt => write_rr (fst rt) (snd rt)) (List.concat itemss) /\ is_min ttl (map snd (List.concat itemss)) /\
    Forall (fun rt => Held (fst rt) /\ is_u32 (snd rt)) (List.concat itemss).
Proof. exact finished_items. Qed.
Print Assumptions C44_ttl_partial.
(** With rejected calls: what they left is in the proof but not in the TTL. [Left]: the records before the one which
    does not parse. *)
Theorem C44_any_run_partial : forall dbg n ty b0 q0 tr b proof ttl, builder_new n ty = Ok (b0, q0) -> Calls dbg b0 tr b ->
  Forall (fun c => is_bytes (fst c)) tr -> finish_proof b = Ok (proof, ttl) ->
  exists itemss, Forall2 (fun c items => if is_ok (snd c) then Response (negb dbg) (fst c) items else Left (negb dbg) (fst c) items \/ items = []) tr itemss /\
    proof = flat_map (fun rt => write_rr (fst rt) (snd rt)) (List.concat itemss) /\
    is_min ttl (map snd (List.concat (map snd (filter (fun ci => is_ok (snd (fst ci))) (combine tr itemss))))) /\
    (forall dbg', Forall wf_rr (map fst (List.concat itemss)) -> parse_rr_stream dbg' proof = Ok (map fst (List.concat itemss))).
Proof. exact finished_any. Qed.
Print Assumptions C44_any_run_partial.
(** Missing: records which a rejected response left in the proof. *)
Theorem C44_ttl_refuted : ~ (forall dbg n ty b0 q0 tr b proof ttl l, builder_new n ty = Ok (b0, q0) -> Calls dbg b0 tr b ->
  Forall (fun c => is_bytes (fst c)) tr -> finish_proof b = Ok (proof, ttl) ->
  Forall (fun rt => wf_rr (fst rt) /\ snd rt < 4294967296) l -> proof = flat_map (fun rt => write_rr (fst rt) (snd rt)) l ->
  is_min ttl (map snd l)).
Proof. exact ttl_refuted. Qed.
Print Assumptions C44_ttl_refuted.
Example C44_example :
  match finished [m_plain 60] with Ok (_, t) => t = 60 | _ => False end /\
  match finished [m_cut 5; m_plain 60] with Ok (p, t) => p = write_rr (w_a "x.") 5 ++ write_rr (w_a "x.") 60 /\ t = 60 | _ => False end.
Proof. checks. Qed.

(** C45. A rejected call changes at most the proof bytes (by appending) ... *)
Theorem C45_rejected_partial : forall dbg b m u b', process_response dbg b m = (Err u, b') ->
  exists x, b' = {| pb_proof := pb_proof b ++ x; pb_min_ttl := pb_min_ttl b; pb_requested := pb_requested b;
                    pb_pending := pb_pending b; pb_made := pb_made b |}.
Proof. exact process_err. Qed.
Print Assumptions C45_rejected_partial.
(** ... nothing if the header was the reason ... *)
Theorem C45_rejected_header_partial : forall dbg b m u b', (exists u, read_header m = Err u) ->
  process_response dbg b m = (Err u, b') -> b' = b.
Proof. exact process_err_header. Qed.
Print Assumptions C45_rejected_header_partial.
(** ... and otherwise exactly the records before the first which does not parse ... *)
Theorem C45_left_partial : forall dbg b m u b', is_bytes m -> pb_pending b <> 0 -> process_response dbg b m = (Err u, b') ->
  exists items, (Left (negb dbg) m items \/ items = [] /\ forall i, ~ Left (negb dbg) m i) /\
    b' = {| pb_proof := pb_proof b ++ flat_map (fun rt => write_rr (fst rt) (snd rt)) items; pb_min_ttl := pb_min_ttl b;
            pb_requested := pb_requested b; pb_pending := pb_pending b; pb_made := pb_made b |}.
Proof. exact process_left. Qed.
Print Assumptions C45_left_partial.
Theorem C45_left_unique_partial : forall lax m i j, is_bytes m -> Left lax m i -> Left lax m j -> i = j.
Proof. exact left_unique. Qed.
Print Assumptions C45_left_unique_partial.
(** ... and builders which differ only in their proof bytes behave alike, except for these bytes. *)
Theorem C45_same_behaviour_partial : forall dbg a b m, same_but_proof a b ->
  fst (process_response dbg a m) = fst (process_response dbg b m) /\
  same_but_proof (snd (process_response dbg a m)) (snd (process_response dbg b m)) /\
  exists x, pb_proof (snd (process_response dbg a m)) = pb_proof a ++ x /\ pb_proof (snd (process_response dbg b m)) = pb_proof b ++ x.
Proof. exact process_state. Qed.
Print Assumptions C45_same_behaviour_partial.
(** Missing: the proof bytes. *)
Theorem C45_rejected_refuted : ~ (forall dbg b m u b' m2, is_bytes m -> is_bytes m2 -> process_response dbg b m = (Err u, b') ->
  finish_proof (snd (process_response dbg b' m2)) = finish_proof (snd (process_response dbg b m2))).
Proof. exact err_refuted. Qed.
Print Assumptions C45_rejected_refuted.
Example C45_example :
  fst (process_response false builder_init (m_cut 5)) = Err tt /\
  pb_proof (snd (process_response false builder_init (m_cut 5))) = write_rr (w_a "x.") 5 /\
  process_response false builder_init (q_msg 0 1 0 (q_a 5)) = (Err tt, builder_init).
Proof. checks. Qed.

(** C54. What [build_proof] returns, from any TCP segmentation: the records of the messages it read. *)
Theorem C54_end_to_end_partial : forall dbg fuel n ty segs proof ttl sent, name_try_from n = Some n -> ty < 65536 -> is_bytes (List.concat segs) ->
  build_proof dbg fuel n ty segs = (Ok (proof, ttl), sent) ->
  exists ms itemss rest, List.concat segs = flat_map frame ms ++ rest /\ (List.length ms <= 10)%nat /\ Forall2 (Response (negb dbg)) ms itemss /\
    proof = flat_map (fun rt => write_rr (fst rt) (snd rt)) (List.concat itemss) /\ is_min ttl (map snd (List.concat itemss)) /\
    (forall dbg', Forall wf_rr (map fst (List.concat itemss)) -> parse_rr_stream dbg' proof = Ok (map fst (List.concat itemss))).
Proof. exact build_proof_sound. Qed.
Print Assumptions C54_end_to_end_partial.
(** Missing: as in C43. *)
Theorem C54_end_to_end_refuted : ~ ParsesBack Held.
Proof. exact held_back_refuted. Qed.
Print Assumptions C54_end_to_end_refuted.
Example C54_example :
  build_proof false 10 (bs "x.") 1 [firstn 20 (frame (m_plain 60)); skipn 20 (frame (m_plain 60))] =
  (Ok (write_rr (w_a "x.") 60, 60), [frame [0; 0; 1; 32; 0; 1; 0; 0; 0; 0; 0; 1; 1; 120; 0; 0; 1; 0; 1; 0; 0; 41; 0; 0; 0; 0; 128; 0; 0; 0]]).
Proof. vm_compute. reflexivity. Qed.

(** C57. A response can panic the client in exactly these ways ([BadResponse]); it never hangs. *)
Theorem C57_panics_partial : forall dbg b m, is_bytes m -> pb_pending b <> 0 ->
  (fst (process_response dbg b m) = Panic <-> BadResponse dbg m) /\ fst (process_response dbg b m) <> Loop.
Proof. exact process_panic. Qed.
Print Assumptions C57_panics_partial.
Theorem C57_panics_refuted : ~ (forall dbg m, is_bytes m -> length_of m <= 65535 -> fst (process_response dbg builder_init m) <> Panic).
Proof. exact no_panic_refuted. Qed.
Print Assumptions C57_panics_refuted.
Example C57_example :
  fst (process_response true builder_init m_big) = Panic /\
  fst (process_response true builder_init (q_msg q_ok 1 0 (q_rec [0] 2 60 [0; 7]))) = Panic /\
  is_ok (fst (process_response false builder_init (q_msg q_ok 1 0 (q_rec [0] 2 60 [0; 7])))) = true.
Proof. checks. Qed.
