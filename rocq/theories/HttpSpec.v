(** Specification of the HTTP front end: the accepted request lines, the data a connection delivers,
    and what a well-framed response is. Independent of the model apart from the type of socket events. *)
From Verif Require Import Base NameSpec TextSpec HttpM.
From Coq Require Import String.
Local Open Scope N_scope.

(** ** Requests *)
(** A query argument "k=v": no "=" in the key, no "&" or blank in either. *)
Definition arg_ok (kv : list N * list N) : Prop :=
  Forall (fun c => c <> 61 /\ c <> 38 /\ c <> 32) (fst kv) /\ Forall (fun c => c <> 38 /\ c <> 32) (snd kv).
Fixpoint query_string (args : list (list N * list N)) : list N :=
  match args with
  | [] => []
  | [kv] => fst kv ++ [61] ++ snd kv
  | kv :: r => fst kv ++ [61] ++ snd kv ++ [38] ++ query_string r
  end.
(** The value of the last argument with key [k]. *)
Fixpoint last_value (k : list N) (args : list (list N * list N)) : option (list N) :=
  match args with
  | [] => None
  | (k', v) :: r => match last_value k r with
                    | Some x => Some x
                    | None => if list_eq_dec N.eq_dec k' k then Some v else None
                    end
  end.
Definition http_version (v : list N) : Prop := v = bs "HTTP/1.0" \/ v = bs "HTTP/1.1".
(** A well-formed request line with its [d] and [t] arguments. *)
Definition GoodRequest (line d t : list N) : Prop :=
  exists args vers, http_version vers /\ args <> [] /\ Forall arg_ok args /\
    line = bs "GET /dnssecproof?" ++ query_string args ++ [32] ++ vers /\
    last_value (bs "d") args = Some d /\ last_value (bs "t") args = Some t.
Definition type_named (t : list N) (ty : N) : Prop :=
  (lower t = bs "txt" /\ ty = 16) \/ (lower t = bs "tlsa" /\ ty = 52) \/
  (lower t = bs "a" /\ ty = 1) \/ (lower t = bs "aaaa" /\ ty = 28).
(** A request for some other path. *)
Definition OtherPath (line : list N) : Prop :=
  exists path vers, http_version vers /\ Forall (fun c => c <> 32) path /\ line = bs "GET " ++ path ++ [32] ++ vers /\
    ~ exists r, path = bs "/dnssecproof?" ++ r.
(** The request line asks for the records of type [ty] of name [n]. *)
Definition AsksFor (line n : list N) (ty : N) : Prop :=
  exists d t, GoodRequest line d t /\ acceptable d /\ n = lower d /\ type_named t ty.

(** ** The connection *)
(** The bytes delivered before the connection ends or fails. *)
Fixpoint delivered (evs : list sock_event) : list N :=
  match evs with
  | [] => []
  | SData d :: r => d ++ delivered r
  | SWouldBlock :: r => delivered r
  | SError :: _ => []
  end.
(** [line] is the text before the first CR LF of [s]. *)
Definition FirstLine (s line : list N) : Prop :=
  (exists rest, s = line ++ [13; 10] ++ rest) /\ ~ exists a b, line = a ++ [13; 10] ++ b.
Definition ascii (s : list N) : Prop := Forall (fun c => c < 128) s.
(** What the server looks at. *)
Definition first_4096 (evs : list sock_event) : list N := firstn (N.to_nat 4096) (delivered evs).

(** ** Responses *)
Definition http_message (lines : list (list N)) (body : list N) : list N :=
  List.concat (map (fun l => l ++ [13; 10]) lines) ++ [13; 10] ++ body.
Definition printable (l : list N) : Prop := Forall (fun c => 32 <= c <= 126) l.
Definition length_line (l : list N) : Prop := exists v, l = bs "Content-Length: " ++ v.
(** [msg] is one HTTP message with this body: its header lines are printable text and not empty, exactly one of
    them is a Content-Length, and it gives the length of the body. *)
Definition Framed (msg body : list N) : Prop :=
  exists before num after, msg = http_message (before ++ [bs "Content-Length: " ++ num] ++ after) body /\
    Decimal (N.of_nat (List.length body)) num /\ Forall (fun l => l <> [] /\ printable l) (before ++ after) /\ Forall (fun l => ~ length_line l) (before ++ after) /\
    exists s, hd [] before = bs "HTTP/1.1 " ++ s.
(** The headers of a proof; the rest of the message is the proof. *)
Definition proof_lines (length_text ttl_text : list N) : list (list N) :=
  [bs "HTTP/1.1 200 OK"; bs "Content-Length: " ++ length_text; bs "Content-Type: application/octet-stream";
   bs "Cache-Control: public, max-age=" ++ ttl_text ++ bs ", s-maxage=" ++ ttl_text; bs "Access-Control-Allow-Origin: *"].
Definition error_message (status len_text body : string) : list N :=
  http_message [bs "HTTP/1.1 " ++ bs status; bs "Content-Length: " ++ bs len_text; bs "Content-Type: text/plain";
                bs "Access-Control-Allow-Origin: *"] (bs body).
(** The six answers which are not proofs, in full. *)
Definition error_messages : list (list N) :=
  [error_message "400 Bad Request" "11" "Bad Request";
   error_message "400 Bad Request" "17" "Request Too Large";
   error_message "400 Bad Request" "29" "Missing d or t URI parameters";
   error_message "400 Bad Request" "48" "Failed to parse domain, make sure it ends with .";
   error_message "404 Not Found" "9" "Not Found";
   error_message "404 Not Found" "41" "Failed to generate proof for given domain"].
