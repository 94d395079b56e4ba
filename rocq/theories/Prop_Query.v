(** Properties C36-C39, C46: buffers, queries, responses and framing. *)
From Verif Require Import Base NameM NameSpec WireM WireSpec RRM SerM RecSpec ValSpec QueryM QuerySpec QBufP QueryP QueryP2 QueryP3 QueryP4 ValW QueryW.
From Coq Require Import String.
Local Open Scope N_scope.

(** C36. *)
Theorem C36_buffer_contents : forall n sls, n <= 65535 -> n + len (List.concat sls) <= 65535 ->
  exists q, extends (new_zeroed n) sls = Ok q /\ qb_deref q = repeat 0 (N.to_nat n) ++ List.concat sls /\
    into_vec q = repeat 0 (N.to_nat n) ++ List.concat sls /\ qb_len q = n + len (List.concat sls).
Proof. exact buffer_contents. Qed.
Print Assumptions C36_buffer_contents.
Theorem C36_buffer_fill : forall n d, n <= 65535 -> len d = n -> qb_deref (qb_fill (new_zeroed n) d) = d.
Proof. exact buffer_fill. Qed.
Print Assumptions C36_buffer_fill.
(** Equality of contents, up to 2048 bytes. *)
Theorem C36_buffer_eq_partial : forall sls tls, len (List.concat sls) <= 2048 -> len (List.concat tls) <= 2048 ->
  exists a b, extends (new_zeroed 0) sls = Ok a /\ extends (new_zeroed 0) tls = Ok b /\
    (qbuf_eqb a b = true <-> List.concat sls = List.concat tls).
Proof. exact buffer_eq_small. Qed.
Print Assumptions C36_buffer_eq_partial.
Theorem C36_buffer_eq_sound : forall a b, qbuf_eqb a b = true -> qb_deref a = qb_deref b.
Proof. exact buffer_eq. Qed.
Print Assumptions C36_buffer_eq_sound.
(** Missing: beyond, the unused stack part is compared too. *)
Theorem C36_buffer_eq_refuted : ~ (forall sls tls a b, extends (new_zeroed 0) sls = Ok a -> extends (new_zeroed 0) tls = Ok b ->
  (qbuf_eqb a b = true <-> qb_deref a = qb_deref b)).
Proof. exact buffer_eq_refuted. Qed.
Print Assumptions C36_buffer_eq_refuted.
(** Across the switch to the heap. *)
Example C36_example :
  match extends (new_zeroed 0) [[1; 2]; repeat 7 (N.to_nat 2046); [3]; [4; 5]] with
  | Ok q => qb_deref q = [1; 2] ++ repeat 7 (N.to_nat 2046) ++ [3; 4; 5] /\ len (qb_heap q) = 2051
  | _ => False
  end.
Proof. vm_compute. split; reflexivity. Qed.

(** C37. The documentation promises that there is no panic. There is one exactly beyond 65535 bytes. *)
Theorem C37_buffer_panic_partial : forall n sls, n <= 65535 -> (extends (new_zeroed n) sls = Panic <-> 65535 < n + len (List.concat sls)).
Proof. exact buffer_panic. Qed.
Print Assumptions C37_buffer_panic_partial.
Theorem C37_buffer_panic_refuted : ~ (forall sls, extends (new_zeroed 0) sls <> Panic).
Proof. exact buffer_panic_refuted. Qed.
Print Assumptions C37_buffer_panic_refuted.
Example C37_example : is_ok (extend_from_slice (new_zeroed 65535) []) = true /\ extend_from_slice (new_zeroed 65535) [0] = Panic /\
  extend_from_slice (new_zeroed 0) (repeat 0 (N.to_nat 65537)) = Panic.
Proof. checks. Qed.

(** C38. *)
Theorem C38_query : forall n ty, name_try_from n = Some n -> ty < 65536 ->
  exists q, builder_new n ty = Ok (builder_init, q) /\ Query n ty (qb_deref q) /\ (List.length (qb_deref q) <= 283)%nat.
Proof. exact query_built. Qed.
Print Assumptions C38_query.
Theorem C38_query_decodes : forall n ty b, proper_name n -> Query n ty b ->
  exists nb, NameIn b nb n /\ b = [0; 0; 1; 32; 0; 1; 0; 0; 0; 0; 0; 1] ++ nb ++ u16 ty ++ [0; 1] ++ [0; 0; 41; 0; 0; 0; 0; 128; 0; 0; 0].
Proof. exact query_decodes. Qed.
Print Assumptions C38_query_decodes.
Theorem C38_query_unique : forall n ty a b, Query n ty a -> Query n ty b -> a = b.
Proof. exact query_unique. Qed.
Print Assumptions C38_query_unique.
Example C38_example : exists q, builder_new (bs "a.bc.") 16 = Ok (builder_init, q) /\
  qb_deref q = [0; 0; 1; 32; 0; 1; 0; 0; 0; 0; 0; 1; 1; 97; 2; 98; 99; 0; 0; 16; 0; 1; 0; 0; 41; 0; 0; 0; 0; 128; 0; 0; 0].
Proof. eexists. split; vm_compute; reflexivity. Qed.

(** C39. [Response]: id 0, one question, QR, opcode 0, not truncated, AD, RCODE 0 or 8, some answer; the
    items are the answers and, of the authority records, the NSEC and NSEC3 ones and their RRSIGs. *)
Theorem C39_accepted_partial : forall dbg b m, is_bytes m -> pb_pending b <> 0 ->
  ((exists qs, fst (process_response dbg b m) = Ok qs) <->
   exists items, Response (negb dbg) m items /\ (dbg = true -> Forall (fun rt => ~ oversized (fst rt)) items)).
Proof. exact process_accepts. Qed.
Print Assumptions C39_accepted_partial.
Theorem C39_contributes : forall dbg b m qs b', is_bytes m -> process_response dbg b m = (Ok qs, b') ->
  exists items, Response (negb dbg) m items /\ pb_proof b' = pb_proof b ++ flat_map (fun rt => write_rr (fst rt) (snd rt)) items.
Proof. exact process_contributes. Qed.
Print Assumptions C39_contributes.
Theorem C39_items_unique : forall lax m i j, Response lax m i -> Response lax m j -> i = j.
Proof. exact response_unique. Qed.
Print Assumptions C39_items_unique.
(** Missing: the RCODE mask has three bits. *)
Theorem C39_rcode_refuted : ~ (forall dbg b m qs b', is_bytes m -> process_response dbg b m = (Ok qs, b') ->
  exists f ans auth, Message (negb dbg) m f ans auth /\ flag_rcode f = 0).
Proof. exact rcode8_refuted. Qed.
Print Assumptions C39_rcode_refuted.
(** Of an A record and an NSEC record in the authority section, the latter is kept. *)
Example C39_example :
  pb_proof (snd (process_response false builder_init
    (q_msg q_ok 1 2 (q_a 60 ++ q_a 61 ++ q_rec [0] 47 62 [0; 0; 1; 64])))) = write_rr (w_a "x.") 60 ++ write_rr (w_nsec "." "." [1]) 62 /\
  fst (process_response false builder_init (q_msg (q_ok + 512) 1 0 (q_a 60))) = Err tt /\
  fst (process_response false builder_init (q_msg (q_ok - 32) 1 0 (q_a 60))) = Err tt /\
  fst (process_response false builder_init (q_msg (q_ok + 3) 1 0 (q_a 60))) = Err tt.
Proof. checks. Qed.

(** C46. *)
Theorem C46_framing : forall ms segs, Forall (fun m => length_of m <= 65535) ms -> List.concat segs = flat_map send_query ms ->
  exists segs', Reads segs ms segs' /\ List.concat segs' = [].
Proof. exact sent_read. Qed.
Print Assumptions C46_framing.
(** The reader is a function, and what it reads is what RFC 1035 4.2.2 says. *)
Theorem C46_framing_unique : forall segs ms s, Reads segs ms s -> forall ms' s', Reads segs ms' s' ->
  List.length ms = List.length ms' -> ms = ms' /\ s = s'.
Proof. exact reads_unique. Qed.
Print Assumptions C46_framing_unique.
Theorem C46_framing_sound : forall segs q segs', is_bytes (List.concat segs) -> read_response segs = Some (q, segs') ->
  List.concat segs = frame (qb_deref q) ++ List.concat segs' /\ length_of (qb_deref q) <= 65535.
Proof. exact read_response_some. Qed.
Print Assumptions C46_framing_sound.
Theorem C46_truncated : forall m p x s segs, length_of m <= 65535 -> send_query m = p ++ x :: s -> List.concat segs = p ->
  read_response segs = None.
Proof. exact sent_truncated. Qed.
Print Assumptions C46_truncated.
Example C46_example : send_query [7; 8; 9] ++ send_query [5] = [0; 3; 7; 8; 9; 0; 1; 5] /\
  match read_response [[0]; [3; 7]; []; [8; 9; 0; 1]; [5]] with
  | Some (q, s) => qb_deref q = [7; 8; 9] /\ s = [[0; 1]; [5]]
  | None => False
  end.
Proof. split; vm_compute; [|split]; reflexivity. Qed.
