(** Model of the HTTP server with all its connections, src/http.rs:47-143, and of the asynchronous
    proof builder, src/query.rs:318-324, 337-349, 359-363, as an event system: what arrives, and which
    task the runtime polls, comes in any order. Line numbers without a file are those of http.rs. *)
From Verif Require Import Base NameM WireM RRM SerM JsonM QueryM HttpM.
From Coq Require Import String.
Local Open Scope N_scope.

(** What the connection to the resolver does: it is established (query.rs:361), bytes arrive, or it is
    closed or fails (any [Err] of [connect], [write_all] or [read_exact], for all of which
    [build_proof_async] returns [Err]). *)
Inductive res_event := RConnected | RBytes (d : bytes) | RFails.

(** Where a task is waiting: for the client (:57) with the bytes read so far, for [connect]
    (query.rs:361), for a response (query.rs:321, 323) with the bytes not used yet (in the program those
    beyond the current message are still in the socket), or it has ended. *)
Inductive control :=
| Reading (buf : bytes)
| Connecting (nm : name) (ty : N)
| Proving (b : builder) (got : bytes)
| Ended.

(** A task ([tokio::spawn], :50-141) with its sockets: bytes which arrived but are not read, and bytes
    written. [SError] stands for any end of the client's stream: [Ok(0)] (:59) and [Err] (:67). *)
Record task := { tk_ctl : control; tk_client : list sock_event; tk_resolver : list res_event; tk_out : bytes; tk_sent : bytes }.

(** src/http.rs:50-54: a task as it starts. *)
Definition new_task : task :=
  {| tk_ctl := Reading []; tk_client := []; tk_resolver := []; tk_out := []; tk_sent := [] |}.
(** src/http.rs:50-141: the task goes to another line. *)
Definition set_ctl (t : task) (c : control) : task :=
  {| tk_ctl := c; tk_client := tk_client t; tk_resolver := tk_resolver t; tk_out := tk_out t; tk_sent := tk_sent t |}.
(** :128-135, :137-140: the answer is written and the task is over. *)
Definition answer (t : task) (r : reply) : task :=
  {| tk_ctl := Ended; tk_client := tk_client t; tk_resolver := tk_resolver t; tk_out := tk_out t ++ render r; tk_sent := tk_sent t |}.
(** Bytes written to the resolver (query.rs:302-306). *)
Definition send (t : task) (bs : bytes) : task :=
  {| tk_ctl := tk_ctl t; tk_client := tk_client t; tk_resolver := tk_resolver t; tk_out := tk_out t; tk_sent := tk_sent t ++ bs |}.
(** src/http.rs:57: what arrived from the client is read. *)
Definition pop_client (t : task) : task :=
  {| tk_ctl := tk_ctl t; tk_client := tl (tk_client t); tk_resolver := tk_resolver t; tk_out := tk_out t; tk_sent := tk_sent t |}.
(** src/query.rs:318-324: what arrived from the resolver is read. *)
Definition pop_resolver (t : task) : task :=
  {| tk_ctl := tk_ctl t; tk_client := tk_client t; tk_resolver := tl (tk_resolver t); tk_out := tk_out t; tk_sent := tk_sent t |}.

(** :70-122: a complete line was read. *)
Definition on_line (t : task) (buf : bytes) : task :=
  match request_line buf with
  | None => answer t (bad "Bad Request")
  | Some l => match parse_request l with
              | inl r => answer t r
              | inr (nm, ty) => set_ctl t (Connecting nm ty)
              end
  end.

(** :55-69: one read. A segment longer than the free space is read up to it; then either there is a
    line, or the buffer is full. *)
Definition on_client (t : task) (buf : bytes) (ev : sock_event) : task :=
  match ev with
  | SWouldBlock | SData [] => t                                    (* :66 *)
  | SError => set_ctl t Ended                                      (* :59, :67 *)
  | SData d =>
      let buf' := buf ++ takeN (4096 - len buf) d in
      if has_crlf buf' then on_line t buf'                         (* :62-64 *)
      else if len buf' =? 4096 then answer t (bad "Request Too Large")  (* :56 *)
      else set_ctl t (Reading buf')
  end.

(** :123-126 with [proof_res]; a panic ends the task without an answer. *)
Definition on_result (t : task) (o : outcome unit (bytes * N)) : task :=
  match o with
  | Ok pt => answer t (proof_reply (Some pt))
  | Err _ => answer t (proof_reply None)
  | Panic | Loop => set_ctl t Ended
  end.

(** query.rs:361, 334-336. *)
Definition on_connect (t : task) (nm : name) (ty : N) (ev : res_event) : task :=
  match ev with
  | RConnected =>
      match builder_new nm ty with
      | Ok (b, q) => set_ctl (send t (send_query (qb_deref q))) (Proving b [])
      | _ => on_result t Panic
      end
  | RBytes _ | RFails => on_result t (Err tt)
  end.

(** One poll of a task: it takes the next thing it is waiting for, or does nothing if there is none.
    [Proving]: query.rs:337-349; a response is processed as soon as all of it is there. *)
Definition poll (dbg : bool) (t : task) : task :=
  match tk_ctl t with
  | Ended => t
  | Reading buf =>
      match tk_client t with
      | [] => t
      | ev :: _ => on_client (pop_client t) buf ev
      end
  | Connecting nm ty =>
      match tk_resolver t with
      | [] => t
      | ev :: _ => on_connect (pop_resolver t) nm ty ev
      end
  | Proving b got =>
      if awaiting_responses b then
        match read_response [got] with
        | Some (q, rest) =>
            match process_response dbg b (qb_deref q) with
            | (Ok qs, b') => set_ctl (send t (List.concat (map (fun q => send_query (qb_deref q)) qs))) (Proving b' (List.concat rest))
            | (Err _, _) => on_result t (Err tt)
            | (Panic, _) => on_result t Panic
            | (Loop, _) => on_result t Loop
            end
        | None =>
            match tk_resolver t with
            | [] => t
            | RBytes d :: _ => set_ctl (pop_resolver t) (Proving b (got ++ d))
            | _ :: _ => on_result (pop_resolver t) (Err tt)
            end
        end
      else on_result t (finish_proof b)
  end.

(** What happens to the server. [AcceptFails]: [listener.accept()] returns an error.
    src/http.rs:48-57; src/query.rs:302-324. *)
Inductive action :=
| Accept
| AcceptFails
| FromClient (i : nat) (ev : sock_event)
| FromResolver (i : nat) (ev : res_event)
| Poll (i : nat).

(** The server is down once [main] has panicked: the runtime, and all tasks with it, are dropped.
    src/http.rs:32, 47-49. *)
Record server := { sv_up : bool; sv_tasks : list task }.
(** :30-32 *)
Definition start : server := {| sv_up := true; sv_tasks := [] |}.

(** src/http.rs:50: the tasks [tokio::spawn] runs share nothing, one of them moves. *)
Fixpoint update (i : nat) (f : task -> task) (l : list task) : list task :=
  match l, i with
  | [], _ => []
  | t :: r, O => f t :: r
  | t :: r, S j => t :: update j f r
  end.

(** src/http.rs:50: one task of the server moves. *)
Definition on_task (s : server) (i : nat) (f : task -> task) : server :=
  {| sv_up := sv_up s; sv_tasks := update i f (sv_tasks s) |}.

(** :48-142 *)
Definition act (dbg : bool) (s : server) (a : action) : server :=
  if negb (sv_up s) then s
  else match a with
  | Accept => {| sv_up := true; sv_tasks := sv_tasks s ++ [new_task] |}
  | AcceptFails => {| sv_up := false; sv_tasks := sv_tasks s |}                        (* :49 *)
  | FromClient i ev => on_task s i (fun t =>
      {| tk_ctl := tk_ctl t; tk_client := tk_client t ++ [ev]; tk_resolver := tk_resolver t; tk_out := tk_out t; tk_sent := tk_sent t |})
  | FromResolver i ev => on_task s i (fun t =>
      {| tk_ctl := tk_ctl t; tk_client := tk_client t; tk_resolver := tk_resolver t ++ [ev]; tk_out := tk_out t; tk_sent := tk_sent t |})
  | Poll i => on_task s i (poll dbg)
  end.

(** src/http.rs:47-143 [run_server]. *)
Definition run_server (dbg : bool) (acts : list action) : server := fold_left (act dbg) acts start.
