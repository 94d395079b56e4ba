(** Model of src/query.rs. Line numbers refer to that file ([cfg(test)], [cfg(fuzzing)] off; the buffer also for other
    values of [STACK_BUF_LIMIT], which is 32 in those builds, as the definitions ending in [_at]). *)
From Verif Require Import Base NameM WireM RRM SerM.
Local Open Scope N_scope.

(** query.rs:27 *)
Definition STACK_BUF_LIMIT : N := 2048.

(** query.rs:31-35 [QueryBuf]. *)
Record qbuf := { qb_buf : bytes; qb_heap : bytes; qb_len : N }.

(** query.rs:38-45 [new_zeroed]. *)
Definition new_zeroed_at (lim l : N) : qbuf :=
  {| qb_buf := repeat 0 (N.to_nat lim);
     qb_heap := if lim <? l then repeat 0 (N.to_nat l) else [];
     qb_len := l |}.

(** [Vec::resize(n, 0)] (std).
    src/query.rs:59. *)
Definition resize0 (v : bytes) (n : N) : bytes :=
  takeN n v ++ repeat 0 (N.to_nat (n - len v)).
(** [v[off..].copy_from_slice(sl)] (std): panics unless the lengths agree.
    src/query.rs:56, 64. *)
Definition copy_at (v : bytes) (off : N) (sl : bytes) : bytes := takeN off v ++ sl ++ dropN (off + len sl) v.

(** query.rs:50-66 [extend_from_slice]. [Panic] is the panic of [copy_from_slice] (line 64) when the
    target has a different length than [sl]. *)
Definition extend_at (lim : N) (q : qbuf) (sl : bytes) : outcome unit qbuf :=
  let new_len := N.min 65535 (qb_len q + as_u16 (len sl)) in                    (* :51 *)
  let was_heap := lim <? qb_len q in
  let is_heap := lim <? new_len in
  let heap1 := if xorb was_heap is_heap
               then copy_at (repeat 0 (N.to_nat new_len)) 0 (takeN (qb_len q) (qb_buf q))  (* :55-56 *)
               else qb_heap q in
  if is_heap then
    let heap2 := resize0 heap1 new_len in                                       (* :59 *)
    if negb (len (dropN (qb_len q) heap2) =? len sl) then Panic
    else Ok {| qb_buf := qb_buf q; qb_heap := copy_at heap2 (qb_len q) sl; qb_len := new_len |}
  else
    if negb (new_len - qb_len q =? len sl) then Panic
    else Ok {| qb_buf := copy_at (qb_buf q) (qb_len q) sl; qb_heap := heap1; qb_len := new_len |}.

(** query.rs:78-84 [Deref]. *)
Definition deref_at (lim : N) (q : qbuf) : bytes :=
  if lim <? qb_len q then qb_heap q else takeN (qb_len q) (qb_buf q).
(** query.rs:68-74 [into_vec]. *)
Definition into_vec_at (lim : N) (q : qbuf) : bytes :=
  if lim <? qb_len q then qb_heap q else takeN (qb_len q) (qb_buf q).
(** query.rs:30 derived [PartialEq]. *)
Definition qbuf_eqb (a b : qbuf) : bool :=
  bytes_eqb (qb_buf a) (qb_buf b) && bytes_eqb (qb_heap a) (qb_heap b) && (qb_len a =? qb_len b).
(** query.rs:87-93 [DerefMut]: overwrite the whole contents through the mutable slice (this is what
    [read_exact] at line 313 and [copy_from_slice] in wasmpack/src/lib.rs:45 do). [data] must have
    the length of the buffer. *)
Definition fill_at (lim : N) (q : qbuf) (data : bytes) : qbuf :=
  if lim <? qb_len q then {| qb_buf := qb_buf q; qb_heap := data; qb_len := qb_len q |}
  else {| qb_buf := copy_at (qb_buf q) 0 data; qb_heap := qb_heap q; qb_len := qb_len q |}.

(** A series of [extend_from_slice] calls.
    src/query.rs:104-112. *)
Fixpoint extends_at (lim : N) (q : qbuf) (sls : list bytes) : outcome unit qbuf :=
  match sls with
  | [] => Ok q
  | s :: t => q' <- extend_at lim q s ;; extends_at lim q' t
  end.

(** query.rs:98 *)
Definition TXID : N := 0.

(** query.rs:100-114 [build_query]. *)
Definition build_query_at (lim : N) (domain : name) (ty : N) : outcome unit qbuf :=
  extends_at lim (new_zeroed_at lim 0)
    ([ be16 TXID; [1; 32]; [0; 1; 0; 0; 0; 0; 0; 1] ]
     ++ write_name_calls domain
     ++ [ be16 ty; be16 1; [0; 0; 41]; be16 0; [0; 0]; be16 32768; be16 0 ]).

(** query.rs:27, 38-114: the above in a build for use. *)
Definition new_zeroed := new_zeroed_at STACK_BUF_LIMIT.
(** src/query.rs:50-66 with the limit of line 27. *)
Definition extend_from_slice := extend_at STACK_BUF_LIMIT.
(** src/query.rs:76-84. *)
Definition qb_deref := deref_at STACK_BUF_LIMIT.
(** src/query.rs:68-74. *)
Definition into_vec := into_vec_at STACK_BUF_LIMIT.
(** src/query.rs:86-93, 188, 313, 322. *)
Definition qb_fill := fill_at STACK_BUF_LIMIT.
(** src/query.rs:104-112. *)
Definition extends := extends_at STACK_BUF_LIMIT.
(** src/query.rs:100-114. *)
Definition build_query := build_query_at STACK_BUF_LIMIT.

(** The state [handle_response] mutates through its [&mut] arguments: proof bytes and key names. It
    stays mutated when the function returns [Err]. *)
Notation hstate := (bytes * list name)%type (only parsing).
Notation hres A := (outcome unit A * hstate)%type (only parsing).

(** query.rs:154-156, 172-174: append one record (in a debug build [write_rr] can overflow). *)
Definition emit (dbg : bool) (r : RR) (ttl : N) (hs : hstate) : option hstate :=
  if dbg && write_data_overflows r then None
  else Some (fst hs ++ write_rr r ttl,
             snd hs ++ match r with RR_RRSig s => [rs_key_name s] | _ => [] end).

(** query.rs:163-171: is this authority-section record skipped? *)
Definition authority_kept (r : RR) : bool :=
  match r with
  | RR_RRSig s => (rs_ty s =? T_NSEC) || (rs_ty s =? T_NSEC3)
  | RR_NSec _ | RR_NSec3 _ => true
  | _ => false
  end.

(** query.rs:152-157 and 159-175: read [n] records; [keep] is constantly true for the answers. *)
Fixpoint read_section (dbg : bool) (resp : bytes) (keep : RR -> bool) (n : nat) (read : bytes) (min_ttl : N)
    (hs : hstate) : hres (N * bytes) :=
  match n with
  | O => (Ok (min_ttl, read), hs)
  | S n' =>
      match parse_wire_packet_rr dbg read resp with
      | Ok (r, ttl, read') =>
          if keep r then
            match emit dbg r ttl hs with
            | Some hs' => read_section dbg resp keep n' read' (N.min min_ttl ttl) hs'
            | None => (Panic, hs)
            end
          else read_section dbg resp keep n' read' min_ttl hs
      | Err x => (Err x, hs)
      | Panic => (Panic, hs)
      | Loop => (Loop, hs)
      end
  end.

(** query.rs:144-148: skip the questions. *)
Fixpoint skip_questions (resp : bytes) (n : nat) (read : bytes) : outcome unit bytes :=
  match n with
  | O => Ok read
  | S n' =>
      '(_, read) <- read_wire_packet_name read resp ;;
      '(_, read) <- read_u16 read ;;
      '(_, read) <- read_u16 read ;;
      skip_questions resp n' read
  end.

(** query.rs:124-148: the header and the question section: (answers, authorities, rest). *)
Definition read_header (resp : bytes) : outcome unit (N * N * bytes) :=
  '(txid, read) <- read_u16 resp ;;
  if negb (txid =? TXID) then Err tt else                                  (* :125 *)
  '(flags, read) <- read_u16 read ;;
  if N.land flags 32768 =? 0 then Err tt else                              (* :128 *)
  if negb (N.land flags 31239 =? 0) then Err tt else                       (* :131, 0b0111_1010_0000_0111 *)
  if N.land flags 32 =? 0 then Err tt else                                 (* :134 *)
  '(questions, read) <- read_u16 read ;;
  if negb (questions =? 1) then Err tt else                                (* :138 *)
  '(answers, read) <- read_u16 read ;;
  if answers =? 0 then Err tt else                                         (* :140 *)
  '(authorities, read) <- read_u16 read ;;
  '(_, read) <- read_u16 read ;;                                           (* :142 *)
  read <- skip_questions resp (N.to_nat questions) read ;;
  Ok (answers, authorities, read).

(** query.rs:123-178 [handle_response]. *)
Definition handle_response (dbg : bool) (resp : bytes) (hs : hstate) : hres N :=
  match read_header resp with
  | Ok (answers, authorities, read) =>
      match read_section dbg resp (fun _ => true) (N.to_nat answers) read (2 ^ 32 - 1) hs with
      | (Ok (ttl, read), hs) =>
          match read_section dbg resp authority_kept (N.to_nat authorities) read ttl hs with
          | (Ok (ttl, _), hs) => (Ok ttl, hs)
          | (Err x, hs) => (Err x, hs)
          | (Panic, hs) => (Panic, hs)
          | (Loop, hs) => (Loop, hs)
          end
      | (Err x, hs) => (Err x, hs)
      | (Panic, hs) => (Panic, hs)
      | (Loop, hs) => (Loop, hs)
      end
  | Err x => (Err x, hs)
  | Panic => (Panic, hs)
  | Loop => (Loop, hs)
  end.

(** query.rs:195 *)
Definition MAX_REQUESTS : N := 10.

(** query.rs:210-216 [ProofBuilder]. *)
Record builder := { pb_proof : bytes; pb_min_ttl : N; pb_requested : list name; pb_pending : N; pb_made : N }.

(** query.rs:227-236 [ProofBuilder::new]. *)
Definition builder_init : builder :=
  {| pb_proof := []; pb_min_ttl := 2 ^ 32 - 1; pb_requested := []; pb_pending := 1; pb_made := 1 |}.
(** src/query.rs:227-236 [ProofBuilder::new]. *)
Definition builder_new (nm : name) (ty : N) : outcome unit (builder * qbuf) :=
  q <- build_query nm ty ;; Ok (builder_init, q).

(** query.rs:243-245 [awaiting_responses]. *)
Definition awaiting_responses (b : builder) : bool := (0 <? pb_pending b) && (pb_made b <=? MAX_REQUESTS).

(** [Vec::dedup] (std): drop consecutive repeats.
    src/query.rs:258. *)
Fixpoint dedup (l : list name) : list name :=
  match l with
  | [] => []
  | x :: t => match t with
              | [] => [x]
              | y :: _ => if bytes_eqb x y then dedup t else x :: dedup t
              end
  end.

(** query.rs:261-274: the loop over the signer names. *)
Fixpoint request_keys (names : list name) (b : builder) (qs : list qbuf) : outcome unit (list qbuf * builder) :=
  match names with
  | [] => Ok (qs, b)
  | k :: t =>
      if existsb (bytes_eqb k) (pb_requested b) then request_keys t b qs
      else
        q1 <- build_query k T_DNSKEY ;;
        let b1 := {| pb_proof := pb_proof b; pb_min_ttl := pb_min_ttl b; pb_requested := pb_requested b ++ [k];
                     pb_pending := pb_pending b + 1; pb_made := pb_made b + 1 |} in
        if negb (bytes_eqb k root_name) then
          q2 <- build_query k T_DS ;;
          request_keys t {| pb_proof := pb_proof b1; pb_min_ttl := pb_min_ttl b1; pb_requested := pb_requested b1;
                            pb_pending := pb_pending b1 + 1; pb_made := pb_made b1 + 1 |} (qs ++ [q1; q2])
        else request_keys t b1 (qs ++ [q1])
  end.

(** query.rs:249-280 [process_response]. The response buffer is given by its bytes ([qb_deref]). The
    returned builder is the mutated [self], also when the result is [Err]. *)
Definition process_response (dbg : bool) (b : builder) (resp : bytes) : outcome unit (list qbuf) * builder :=
  if pb_pending b =? 0 then (Err tt, b)
  else
    let '(r, (proof, names)) := handle_response dbg resp (pb_proof b, []) in
    let b0 := {| pb_proof := proof; pb_min_ttl := pb_min_ttl b; pb_requested := pb_requested b;
                 pb_pending := pb_pending b; pb_made := pb_made b |} in
    match r with
    | Ok ttl =>
        let b1 := {| pb_proof := proof; pb_min_ttl := N.min (pb_min_ttl b) ttl; pb_requested := pb_requested b;
                     pb_pending := pb_pending b - 1; pb_made := pb_made b |} in
        match request_keys (dedup (sort_by bytes_cmp names)) b1 [] with
        | Ok (qs, b2) => (Ok (if pb_made b2 <=? MAX_REQUESTS then qs else []), b2)
        | Err x => (Err x, b1)
        | Panic => (Panic, b1)
        | Loop => (Loop, b1)
        end
    | Err x => (Err x, b0)
    | Panic => (Panic, b0)
    | Loop => (Loop, b0)
    end.

(** query.rs:285-291 [finish_proof]. *)
Definition finish_proof (b : builder) : outcome unit (bytes * N) :=
  if (0 <? pb_pending b) || (MAX_REQUESTS <? pb_made b) then Err tt
  else Ok (pb_proof b, pb_min_ttl b).

(** ** The TCP driver. A connection is the sequence of segments the peer's bytes arrive in; the end
    of the list is end-of-stream. *)

(** query.rs:295-299 [send_query] (302-306 async): the bytes written. *)
Definition send_query (q : bytes) : bytes := be16 (as_u16 (len q)) ++ q.

(** [Read::read_exact] (std) on segments: [None] is [UnexpectedEof].
    src/query.rs:311-313, 320-322. *)
Fixpoint read_exact (n : N) (segs : list bytes) : option (bytes * list bytes) :=
  if n =? 0 then Some ([], segs)
  else match segs with
  | [] => None
  | s :: t => if len s <=? n
              then match read_exact (n - len s) t with
                   | Some (d, r) => Some (s ++ d, r)
                   | None => None
                   end
              else Some (takeN n s, dropN n s :: t)
  end.

(** query.rs:309-315 [read_response] (318-324 async). *)
Definition read_response (segs : list bytes) : option (qbuf * list bytes) :=
  match read_exact 2 segs with
  | Some (lb, segs) =>
      let l := nth 0 lb 0 * 256 + nth 1 lb 0 in
      match read_exact l segs with
      | Some (d, segs) => Some (qb_fill (new_zeroed l) d, segs)
      | None => None
      end
  | None => None
  end.

(** query.rs:337-349: the driver loop of [build_proof_impl!], with the bytes written to the resolver.
    IO errors, bad responses and "too many requests" are all [Err]. *)
Fixpoint drive (dbg : bool) (fuel : nat) (b : builder) (segs : list bytes) (sent : list bytes)
    : outcome unit (bytes * N) * list bytes :=
  if awaiting_responses b then
    match fuel with
    | O => (Loop, sent)
    | S f =>
        match read_response segs with
        | None => (Err tt, sent)
        | Some (q, segs) =>
            match process_response dbg b (qb_deref q) with
            | (Ok qs, b') => drive dbg f b' segs (sent ++ map (fun q => send_query (qb_deref q)) qs)
            | (Err _, _) => (Err tt, sent)
            | (Panic, _) => (Panic, sent)
            | (Loop, _) => (Loop, sent)
            end
        end
    end
  else (finish_proof b, sent).

(** query.rs:354-363 [build_proof], [build_proof_async]. *)
Definition build_proof (dbg : bool) (fuel : nat) (domain : name) (ty : N) (segs : list bytes)
    : outcome unit (bytes * N) * list bytes :=
  match builder_new domain ty with
  | Ok (b, q) => drive dbg fuel b segs [send_query (qb_deref q)]
  | Err x => (Err x, [])
  | Panic => (Panic, [])
  | Loop => (Loop, [])
  end.
