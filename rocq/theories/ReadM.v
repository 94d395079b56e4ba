(** Reading a request, with a count of the pairs of octets which are compared with CR LF. *)
From Verif Require Import Base HttpM.
Local Open Scope N_scope.

(** src/http.rs:62-64, as [has_crlf]: the windows looked at, until one is CR LF. *)
Fixpoint c_has_crlf (l : bytes) : N * bool :=
  match l with
  | [] => (0, false)
  | a :: t => match t with
              | [] => (0, false)
              | b :: _ => if (a =? 13) && (b =? 10) then (1, true)
                          else let '(n, found) := c_has_crlf t in (1 + n, found)
              end
  end.
(** src/http.rs:55-69, as [read_req]. *)
Fixpoint c_read_req (evs : list sock_event) (buf : bytes) : N * read_outcome :=
  if len buf =? 4096 then (0, RTooLarge)
  else match evs with
  | [] => (0, RClosed)
  | SWouldBlock :: t => c_read_req t buf
  | SError :: _ => (0, RClosed)
  | SData [] :: t => c_read_req t buf
  | SData d :: t =>
      let buf' := buf ++ takeN (4096 - len buf) d in
      let '(n, found) := c_has_crlf buf' in
      if found then (n, RRequest buf')
      else if len d <=? 4096 - len buf then let '(m, r) := c_read_req t buf' in (n + m, r)
      else (n, RTooLarge)
  end.
