(** Model of writing to a socket which may take a part only, or fail: src/http.rs:128-140, src/query.rs:294-306. *)
From Verif Require Import Base NameM WireM RRM JsonM QueryM HttpM.
From Coq Require Import String.
Local Open Scope N_scope.

(** What the socket does with the next write: it takes at most so many octets, or fails. After the end of a list of these it is not ready
    (or, blocking, the call does not return). [Interrupted] and [WouldBlock] are dealt with by [write_all] and tokio and are not events.
    src/http.rs:128-140, src/query.rs:296-297, 303-304. *)
Inductive write_event := WTakes (n : N) | WFails.
(** How [write_all] returns, if it does: [WriteZero] is an error as well.
    src/http.rs:128-140, src/query.rs:296-297, 303-304. *)
Inductive write_result := WDone | WError | WWaits.

(** [write_all] of [std::io::Write] and of [tokio::io::AsyncWriteExt]: the octets which went out, the result, and what is to happen next.
    src/http.rs:128-140, src/query.rs:296-297, 303-304. *)
Fixpoint write_all (buf : bytes) (evs : list write_event) : bytes * write_result * list write_event :=
  match buf with
  | [] => ([], WDone, evs)
  | _ => match evs with
         | [] => ([], WWaits, [])
         | WFails :: t => ([], WError, t)
         | WTakes n :: t =>
             if n =? 0 then ([], WError, t)
             else let '(sent, r, t') := write_all (dropN n buf) t in (takeN n buf ++ sent, r, t')
         end
  end.

(** src/http.rs:128-133: the header of a proof. *)
Definition proof_header (proof : bytes) (ttl : N) : bytes :=
  bs "HTTP/1.1 200 OK" ++ crlf ++ bs "Content-Length: " ++ dec (len proof) ++ crlf
  ++ bs "Content-Type: application/octet-stream" ++ crlf
  ++ bs "Cache-Control: public, max-age=" ++ dec ttl ++ bs ", s-maxage=" ++ dec ttl ++ crlf
  ++ bs "Access-Control-Allow-Origin: *" ++ crlf ++ crlf.

(** src/http.rs:128-140: the answer is written, errors are ignored ([let _ =]); [None] while a write waits. *)
Definition write_reply (r : reply) (evs : list write_event) : bytes * option (list write_event) :=
  match r with
  | Proof proof ttl =>
      match write_all (proof_header proof ttl) evs with
      | (sent, WWaits, _) => (sent, None)
      | (sent, _, evs') =>
          match write_all proof evs' with
          | (sent', WWaits, _) => (sent ++ sent', None)
          | (sent', _, evs'') => (sent ++ sent', Some evs'')
          end
      end
  | Plain _ _ =>
      match write_all (render r) evs with
      | (sent, WWaits, _) => (sent, None)
      | (sent, _, evs') => (sent, Some evs')
      end
  end.

(** src/query.rs:294-306 [send_query], [send_query_async]: the length and the query are written; after an error ([?]) nothing is. *)
Definition write_query (query : bytes) (evs : list write_event) : bytes * write_result * list write_event :=
  match write_all (be16 (as_u16 (len query))) evs with
  | (sent, WDone, evs') => let '(sent', r, evs'') := write_all query evs' in (sent ++ sent', r, evs'')
  | o => o
  end.
(** src/query.rs:330-363, build_proof_impl: the queries which are sent, one after another; the first error ends it ([?]). *)
Fixpoint write_queries (queries : list bytes) (evs : list write_event) : bytes * write_result * list write_event :=
  match queries with
  | [] => ([], WDone, evs)
  | q :: t => match write_query q evs with
              | (sent, WDone, evs') => let '(sent', r, evs'') := write_queries t evs' in (sent ++ sent', r, evs'')
              | o => o
              end
  end.
