(** Model of one connection of the HTTP server, src/http.rs:51-141. Line numbers refer to that file. *)
From Verif Require Import Base NameM WireM RRM JsonM.
From Coq Require Import String.
Local Open Scope N_scope.

(** src/http.rs:63, 72: ["\r\n"]. *)
Definition crlf : bytes := [13; 10].

(** What the socket does next (http.rs:57-68): a segment of bytes becomes available, a spurious
    [WouldBlock], or an IO error. The end of the list is end-of-stream ([Ok(0)]). *)
Inductive sock_event := SData (d : bytes) | SWouldBlock | SError.

(** [slice.windows(2)] containing CR LF (http.rs:62-64). *)
Fixpoint has_crlf (l : bytes) : bool :=
  match l with
  | [] => false
  | a :: t => match t with
              | [] => false
              | b :: _ => ((a =? 13) && (b =? 10)) || has_crlf t
              end
  end.

(** src/http.rs:55-69: how the reading of the request ends. *)
Inductive read_outcome := RClosed | RTooLarge | RRequest (buf : bytes).

(** http.rs:55-69 ['read_req]. A read returns at most the free space of the 4096-byte buffer; a
    longer segment stays queued, so the following read gets its remainder (with a full buffer the
    loop stops at line 56 first). An empty segment is dropped: TCP has no such thing. *)
Fixpoint read_req (evs : list sock_event) (buf : bytes) : read_outcome :=
  if len buf =? 4096 then RTooLarge
  else match evs with
  | [] => RClosed
  | SWouldBlock :: t => read_req t buf
  | SError :: _ => RClosed
  | SData [] :: t => read_req t buf
  | SData d :: t =>
      let buf' := buf ++ takeN (4096 - len buf) d in
      if has_crlf buf' then RRequest buf'
      else if len d <=? 4096 - len buf then read_req t buf'
      else RTooLarge  (* the buffer is now full: line 56 on the next iteration *)
  end.

(** [str::split_once("\r\n")].
    src/http.rs:72. *)
Fixpoint split_crlf (l : bytes) : option (bytes * bytes) :=
  match l with
  | [] => None
  | a :: t => match t with
              | [] => None
              | b :: r => if (a =? 13) && (b =? 10) then Some ([], r)
                          else match split_crlf t with
                               | Some (x, y) => Some (a :: x, y)
                               | None => None
                               end
              end
  end.

(** What the server decided to answer.
    src/http.rs:51, 93, 124, 128-140. *)
Inductive reply :=
| Plain (status : string) (body : string)
| Proof (proof : bytes) (ttl : N).

(** src/http.rs:51: the status of every error but the two [404]. *)
Definition bad (body : string) : reply := Plain "400 Bad Request" body.

(** http.rs:97-106: the query arguments; [None] is the [break 'ret_err] of line 105. *)
Fixpoint parse_args (args : list bytes) (d t : bytes) : option (bytes * bytes) :=
  match args with
  | [] => Some (d, t)
  | a :: r =>
      match split_once 61 a with
      | None => None
      | Some (k, v) =>
          if bytes_eqb k (bs "d") then parse_args r v t
          else if bytes_eqb k (bs "t") then parse_args r d v
          else parse_args r d t
      end
  end.

(** http.rs:116-122: the requested record type. *)
Definition type_of (t : bytes) : option N :=
  let u := uppercase t in
  if bytes_eqb u (bs "TXT") then Some T_TXT
  else if bytes_eqb u (bs "TLSA") then Some T_TLSA
  else if bytes_eqb u (bs "A") then Some T_A
  else if bytes_eqb u (bs "AAAA") then Some T_AAAA
  else None.

(** src/http.rs:91. *)
Definition PATH_PFX : bytes := bs "/dnssecproof?".

(** http.rs:82-122: from the request line to the name and type asked for, or to the reply. *)
Definition parse_request (request : bytes) : reply + name * N :=
  match split_on 32 request with
  | [verb; path; vers] =>                                                 (* :82-87 *)
      if negb (bytes_eqb verb (bs "GET")) then inl (bad "Bad Request")
      else if negb (bytes_eqb vers (bs "HTTP/1.1")) && negb (bytes_eqb vers (bs "HTTP/1.0")) then inl (bad "Bad Request")
      else if negb (starts_with path PATH_PFX) then inl (Plain "404 Not Found" "Not Found")
      else match parse_args (split_on 38 (dropN (len PATH_PFX) path)) [] [] with
      | None => inl (bad "Bad Request")
      | Some (d, t) =>
          if is_nil d || is_nil t then inl (bad "Missing d or t URI parameters")
          else match name_try_from d with
          | None => inl (bad "Failed to parse domain, make sure it ends with .")
          | Some nm =>
              match type_of t with
              | None => inl (bad "Bad Request")
              | Some ty => inr (nm, ty)
              end
          end
      end
  | _ => inl (bad "Bad Request")
  end.

(** http.rs:123-126: the reply once the proof builder is done; [None] is its [Err]. *)
Definition proof_reply (res : option (bytes * N)) : reply :=
  match res with
  | None => Plain "404 Not Found" "Failed to generate proof for given domain"
  | Some (proof, ttl) => Proof proof ttl
  end.

(** http.rs:82-126: from the request line to the reply. [prove] is the result of the proof builder
    (http.rs:117-120; network), [None] for [Err]. *)
Definition handle_request (prove : name -> N -> option (bytes * N)) (request : bytes) : reply :=
  match parse_request request with
  | inl r => r
  | inr (nm, ty) => proof_reply (prove nm ty)
  end.

(** http.rs:70-80: the request line; [None] is [break 'ret_err] (the [debug_assert] of line 75 is
    unreachable since the read loop found CR LF). *)
Definition request_line (buf : bytes) : option bytes :=
  if utf8_ok buf then match split_crlf buf with Some (r, _) => Some r | None => None end else None.

(** http.rs:51-126 *)
Definition handle_buf (prove : name -> N -> option (bytes * N)) (buf : bytes) : reply :=
  match request_line buf with
  | None => bad "Bad Request"
  | Some r => handle_request prove r
  end.

(** http.rs:128-140: the bytes written back. *)
Definition render (r : reply) : bytes :=
  match r with
  | Proof proof ttl =>
      bs "HTTP/1.1 200 OK" ++ crlf ++ bs "Content-Length: " ++ dec (len proof) ++ crlf
      ++ bs "Content-Type: application/octet-stream" ++ crlf
      ++ bs "Cache-Control: public, max-age=" ++ dec ttl ++ bs ", s-maxage=" ++ dec ttl ++ crlf
      ++ bs "Access-Control-Allow-Origin: *" ++ crlf ++ crlf ++ proof
  | Plain status body =>
      bs "HTTP/1.1 " ++ bs status ++ crlf ++ bs "Content-Length: " ++ dec (len (bs body)) ++ crlf
      ++ bs "Content-Type: text/plain" ++ crlf ++ bs "Access-Control-Allow-Origin: *" ++ crlf ++ crlf ++ bs body
  end.

(** http.rs:51-141: one connection; [None] when the server returns without answering (lines 59, 67). *)
Definition serve (prove : name -> N -> option (bytes * N)) (evs : list sock_event) : option reply :=
  match read_req evs [] with
  | RClosed => None
  | RTooLarge => Some (bad "Request Too Large")
  | RRequest buf => Some (handle_buf prove buf)
  end.
