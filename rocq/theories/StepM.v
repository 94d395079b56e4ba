(** Model of the reading of names, records, proofs and responses which also counts the octets looked at
    for names: the functions of WireM.v, RRM.v, SerM.v and QueryM.v once more, with a counter. All other
    octets are read once, from the front, and not counted. *)
From Verif Require Import Base NameM WireM RRM SerM QueryM.
Local Open Scope N_scope.

(** A result and the octets looked at until then. *)
Notation counted A := (N * A)%type.
(** Sequence: the Rust operator [?] after a call which looks at octets, as src/ser.rs:137. *)
Definition cbind {E A B} (x : counted (outcome E A)) (f : A -> counted (outcome E B)) : counted (outcome E B) :=
  match x with
  | (n, Ok a) => let '(m, r) := f a in (n + m, r)
  | (n, Err e) => (n, Err e)
  | (n, Panic) => (n, Panic)
  | (n, Loop) => (n, Loop)
  end.
(** A step for which nothing is counted, as the numbers of src/ser.rs:138-142. *)
Definition free {A} (x : A) : counted A := (0, x).

(** src/ser.rs:77-96, as [labels_loop]: an octet for each length, two for a pointer, and those of the
    labels (line 90; a label which is not UTF-8 counts in full). *)
Fixpoint s_labels_loop (jump : option (bytes -> bytes -> counted (outcome unit bytes))) (wire : bytes)
    (fuel : nat) (inp nm : bytes) : counted (outcome unit (bytes * bytes)) :=
  match fuel with
  | O => (0, Loop)
  | S f =>
      match inp with
      | [] => (0, Err tt)                                                 (* ser.rs:79 *)
      | l :: inp1 =>
          let as_label :=
            if len inp1 <=? l then (1, Err tt)                            (* ser.rs:89 *)
            else if negb (utf8_ok (takeN l inp1)) then (1 + l, Err tt)    (* ser.rs:90 *)
            else let nm' := nm ++ takeN l inp1 ++ [dot] in                (* ser.rs:90-91 *)
                 if 255 <? len nm' then (1 + l, Err tt)                   (* ser.rs:93 *)
                 else let '(n, r) := s_labels_loop jump wire f (dropN l inp1) nm' in (1 + l + n, r) in
          if l =? 0 then (1, Ok (if is_nil nm then [dot] else nm, inp1))  (* ser.rs:80-82 *)
          else match jump with
               | Some rec =>
                   if 192 <=? l then                                      (* ser.rs:83 *)
                     match inp1 with
                     | [] => (1, Err tt)                                  (* ser.rs:84 *)
                     | lo :: inp2 =>
                         let offs := (l - 192) * 256 + lo in
                         if len wire <=? offs then (2, Err tt)            (* ser.rs:85 *)
                         else match rec (dropN offs wire) nm with
                              | (n, Ok nm') => (2 + n, Ok (nm', inp2))
                              | (n, Err x) => (2 + n, Err x)
                              | (n, Panic) => (2 + n, Panic)
                              | (n, Loop) => (2 + n, Loop)
                              end
                     end
                   else as_label
               | None => as_label
               end
      end
  end.
(** src/ser.rs:77-96, as [do_read_wire_packet_labels]. *)
Fixpoint s_do_read (limit : nat) (wire inp nm : bytes) : counted (outcome unit (bytes * bytes)) :=
  s_labels_loop
    (match limit with
     | O => None
     | S l => Some (fun i n => cbind (s_do_read l wire i n) (fun '(nm', _) => free (Ok nm')))
     end) wire (S (List.length inp)) inp nm.
(** src/ser.rs:98-106, as [read_wire_packet_name]. *)
Definition s_read_name (inp wire : bytes) : counted (rd name) :=
  cbind (s_do_read 255 wire inp []) (fun '(nm, rest) => free (match name_try_from nm with Some n => Ok (n, rest) | None => Err tt end)).

(** src/rr.rs:383-387, 414-418, 859-863, as [read_single_name]. *)
Definition s_single_name (dbg : bool) (data wire : bytes) : counted (outcome unit name) :=
  cbind (s_read_name data wire) (fun '(n, d) => free (if dbg && negb (is_nil d) then Panic else Ok n)).
(** src/rr.rs:603-612, as [rrsig_read]. *)
Definition s_rrsig_read (nm : name) (data wire : bytes) : counted (outcome unit rrsig) :=
  cbind (free (read_u16 data)) (fun '(ty, d) =>
  cbind (free (read_u8 d)) (fun '(alg, d) =>
  cbind (free (read_u8 d)) (fun '(lab, d) =>
  cbind (free (read_u32 d)) (fun '(ttl, d) =>
  cbind (free (read_u32 d)) (fun '(ex, d) =>
  cbind (free (read_u32 d)) (fun '(inc, d) =>
  cbind (free (read_u16 d)) (fun '(tag, d) =>
  cbind (s_read_name d wire) (fun '(kn, d) =>
  free (Ok {| rs_name := nm; rs_ty := ty; rs_alg := alg; rs_labels := lab; rs_orig_ttl := ttl;
              rs_expiration := ex; rs_inception := inc; rs_key_tag := tag; rs_key_name := kn;
              rs_signature := d |}))))))))).
(** src/rr.rs:703-710, as [nsec_read]. *)
Definition s_nsec_read (nm : name) (data wire : bytes) : counted (outcome unit nsec) :=
  cbind (s_read_name data wire) (fun '(nx, d) =>
  free (m <- read_nsec_types_bitmap d ;; Ok {| ns_name := nm; ns_next := nx; ns_types := m |})).
(** src/ser.rs:147-161, as [read_data]. *)
Definition s_read_data (dbg : bool) (ty : N) (nm : name) (data wire : bytes) : counted (outcome unit RR) :=
  if ty =? T_NS then cbind (s_single_name dbg data wire) (fun c => free (Ok (RR_NS {| nr_name := nm; nr_server := c |})))
  else if ty =? T_CNAME then cbind (s_single_name dbg data wire) (fun c => free (Ok (RR_CName {| cn_name := nm; cn_canonical := c |})))
  else if ty =? T_DNAME then cbind (s_single_name dbg data wire) (fun c => free (Ok (RR_DName {| dn_name := nm; dn_delegation := c |})))
  else if ty =? T_RRSIG then cbind (s_rrsig_read nm data wire) (fun r => free (Ok (RR_RRSig r)))
  else if ty =? T_NSEC then cbind (s_nsec_read nm data wire) (fun r => free (Ok (RR_NSec r)))
  else free (read_data dbg ty nm data wire).
(** src/ser.rs:136-163, as [parse_wire_packet_rr]. *)
Definition s_parse_wire_packet_rr (dbg : bool) (inp wire : bytes) : counted (outcome unit (RR * N * bytes)) :=
  cbind (s_read_name inp wire) (fun '(nm, i) =>
  cbind (free (read_u16 i)) (fun '(ty, i) =>
  cbind (free (read_u16 i)) (fun '(class, i) =>
  if negb (class =? 1) then free (Err tt) else
  cbind (free (read_u32 i)) (fun '(ttl, i) =>
  cbind (free (read_u16 i)) (fun '(data_len, i) =>
  if len i <? data_len then free (Err tt) else
  cbind (s_read_data dbg ty nm (takeN data_len i) wire) (fun r => free (Ok (r, ttl, dropN data_len i)))))))).
(** src/ser.rs:165-167, as [parse_rr]. *)
Definition s_parse_rr (dbg : bool) (inp : bytes) : counted (outcome unit (RR * bytes)) :=
  cbind (s_parse_wire_packet_rr dbg inp []) (fun '(r, _, rest) => free (Ok (r, rest))).
(** src/ser.rs:173-179, as [parse_stream_loop]. *)
Fixpoint s_stream_loop (dbg : bool) (fuel : nat) (inp : bytes) (res : list RR) : counted (outcome unit (list RR)) :=
  match inp with
  | [] => free (Ok res)
  | _ => match fuel with
         | O => free Loop
         | S f => cbind (s_parse_rr dbg inp) (fun '(r, rest) => s_stream_loop dbg f rest (res ++ [r]))
         end
  end.
(** src/ser.rs:173-179, as [parse_rr_stream]. *)
Definition s_parse_rr_stream (dbg : bool) (inp : bytes) : counted (outcome unit (list RR)) :=
  s_stream_loop dbg (List.length inp) inp [].

(** src/query.rs:152-157 and 159-175, as [read_section]. *)
Fixpoint s_read_section (dbg : bool) (resp : bytes) (keep : RR -> bool) (n : nat) (read : bytes) (min_ttl : N)
    (hs : hstate) : counted (hres (N * bytes)) :=
  match n with
  | O => free (Ok (min_ttl, read), hs)
  | S n' =>
      match s_parse_wire_packet_rr dbg read resp with
      | (c, Ok (r, ttl, read')) =>
          if keep r then
            match emit dbg r ttl hs with
            | Some hs' => let '(c', x) := s_read_section dbg resp keep n' read' (N.min min_ttl ttl) hs' in (c + c', x)
            | None => (c, (Panic, hs))
            end
          else let '(c', x) := s_read_section dbg resp keep n' read' min_ttl hs in (c + c', x)
      | (c, Err x) => (c, (Err x, hs))
      | (c, Panic) => (c, (Panic, hs))
      | (c, Loop) => (c, (Loop, hs))
      end
  end.
(** src/query.rs:144-148, as [skip_questions]. *)
Fixpoint s_skip_questions (resp : bytes) (n : nat) (read : bytes) : counted (outcome unit bytes) :=
  match n with
  | O => free (Ok read)
  | S n' =>
      cbind (s_read_name read resp) (fun '(_, read) =>
      cbind (free (read_u16 read)) (fun '(_, read) =>
      cbind (free (read_u16 read)) (fun '(_, read) => s_skip_questions resp n' read)))
  end.
(** src/query.rs:124-148, as [read_header]. *)
Definition s_read_header (resp : bytes) : counted (outcome unit (N * N * bytes)) :=
  cbind (free (read_u16 resp)) (fun '(txid, read) =>
  if negb (txid =? TXID) then free (Err tt) else
  cbind (free (read_u16 read)) (fun '(flags, read) =>
  if N.land flags 32768 =? 0 then free (Err tt) else
  if negb (N.land flags 31239 =? 0) then free (Err tt) else
  if N.land flags 32 =? 0 then free (Err tt) else
  cbind (free (read_u16 read)) (fun '(questions, read) =>
  if negb (questions =? 1) then free (Err tt) else
  cbind (free (read_u16 read)) (fun '(answers, read) =>
  if answers =? 0 then free (Err tt) else
  cbind (free (read_u16 read)) (fun '(authorities, read) =>
  cbind (free (read_u16 read)) (fun '(_, read) =>
  cbind (s_skip_questions resp (N.to_nat questions) read) (fun read =>
  free (Ok (answers, authorities, read))))))))).
(** src/query.rs:123-178, as [handle_response]. *)
Definition s_handle_response (dbg : bool) (resp : bytes) (hs : hstate) : counted (hres N) :=
  match s_read_header resp with
  | (c, Ok (answers, authorities, read)) =>
      match s_read_section dbg resp (fun _ => true) (N.to_nat answers) read (2 ^ 32 - 1) hs with
      | (c1, (Ok (ttl, read), hs)) =>
          match s_read_section dbg resp authority_kept (N.to_nat authorities) read ttl hs with
          | (c2, (Ok (ttl, _), hs)) => (c + c1 + c2, (Ok ttl, hs))
          | (c2, (Err x, hs)) => (c + c1 + c2, (Err x, hs))
          | (c2, (Panic, hs)) => (c + c1 + c2, (Panic, hs))
          | (c2, (Loop, hs)) => (c + c1 + c2, (Loop, hs))
          end
      | (c1, (Err x, hs)) => (c + c1, (Err x, hs))
      | (c1, (Panic, hs)) => (c + c1, (Panic, hs))
      | (c1, (Loop, hs)) => (c + c1, (Loop, hs))
      end
  | (c, Err x) => (c, (Err x, hs))
  | (c, Panic) => (c, (Panic, hs))
  | (c, Loop) => (c, (Loop, hs))
  end.
