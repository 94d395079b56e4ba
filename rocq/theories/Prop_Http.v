(** Properties C48-C50: the HTTP front end. [serve prove evs] is the reply (if any) to a connection on
    which the socket events [evs] happen, [prove] being the outcome of the proof construction. *)
From Verif Require Import Base NameSpec NameM HttpM TextSpec HttpSpec HttpP HttpW.
From Coq Require Import String.
Local Open Scope N_scope.

(** C48. A proof is only ever served for a request line of the documented form, and it is the proof
    for the name and type that line asks for. *)
Theorem C48_serves_only : forall prove evs p ttl, serve prove evs = Some (Proof p ttl) ->
  exists line n ty, FirstLine (first_4096 evs) line /\ AsksFor line n ty /\ prove n ty = Some (p, ttl).
Proof. exact serve_sound. Qed.
Print Assumptions C48_serves_only.
(** A line asks for one thing only. *)
Theorem C48_asks_one_thing : forall line n ty n' ty', AsksFor line n ty -> AsksFor line n' ty' -> n = n' /\ ty = ty'.
Proof. exact asks_unique. Qed.
Print Assumptions C48_asks_one_thing.
(** Conversely every such request is served, if the bytes read are ASCII ... *)
Theorem C48_serves_partial : forall prove evs line n ty p ttl, ascii (first_4096 evs) -> FirstLine (first_4096 evs) line -> AsksFor line n ty ->
  prove n ty = Some (p, ttl) -> serve prove evs = Some (Proof p ttl).
Proof. exact serve_complete. Qed.
Print Assumptions C48_serves_partial.
(** ... which is missing from the full statement; that is false: the bytes which happen to arrive with
    the request line must be valid UTF-8, so a character cut by a segment boundary is fatal. *)
Theorem C48_serves_refuted : ~ (forall prove evs line n ty p ttl, FirstLine (first_4096 evs) line -> AsksFor line n ty ->
  prove n ty = Some (p, ttl) -> serve prove evs = Some (Proof p ttl)).
Proof. exact complete_refuted. Qed.
Print Assumptions C48_serves_refuted.
(** Every other complete request gets a 400 or a 404 ... *)
Theorem C48_rejects : forall prove evs line, FirstLine (first_4096 evs) line ->
  (forall n ty, AsksFor line n ty -> prove n ty = None) ->
  exists status body, serve prove evs = Some (Plain status body) /\ (status = "400 Bad Request" \/ status = "404 Not Found")%string.
Proof. exact serve_rejects. Qed.
Print Assumptions C48_rejects.
(** ... 404 for other paths and failed proofs, 400 for everything else. *)
Theorem C48_other_path : forall prove line, OtherPath line -> handle_request prove line = Plain "404 Not Found" "Not Found".
Proof. exact handle_other. Qed.
Print Assumptions C48_other_path.
Theorem C48_no_proof : forall prove line n ty, AsksFor line n ty -> prove n ty = None ->
  handle_request prove line = Plain "404 Not Found" "Failed to generate proof for given domain".
Proof. exact handle_fail. Qed.
Print Assumptions C48_no_proof.
Theorem C48_bad_request : forall prove line, ~ OtherPath line -> (forall n ty, ~ AsksFor line n ty) ->
  exists body, handle_request prove line = Plain "400 Bad Request" body.
Proof. exact handle_bad. Qed.
Print Assumptions C48_bad_request.
(** Without a complete line in the first 4096 bytes: 400 if there are that many, otherwise silence. *)
Theorem C48_no_line : forall prove evs, (forall line, ~ FirstLine (first_4096 evs) line) ->
  serve prove evs = if len (delivered evs) <? 4096 then None else Some (Plain "400 Bad Request" "Request Too Large").
Proof. exact serve_no_line. Qed.
Print Assumptions C48_no_line.
Example C48_example :
  serve h_prove [SWouldBlock; SData (h_line ++ [13]); SData [10]] = Some (Proof [1; 2; 3] 3600) /\
  serve h_prove [SData (bs "GET /x HTTP/1.1" ++ [13; 10])] = Some (Plain "404 Not Found" "Not Found") /\
  serve h_prove [SData (bs "GET /dnssecproof?d=b.&t=a HTTP/1.0" ++ [13; 10])] = Some (Plain "404 Not Found" "Failed to generate proof for given domain") /\
  serve h_prove [SData (bs "GET /dnssecproof?d=b&t=a HTTP/1.0" ++ [13; 10])] = Some (Plain "400 Bad Request" "Failed to parse domain, make sure it ends with .") /\
  serve h_prove [SData (repeat 65 5000)] = Some (Plain "400 Bad Request" "Request Too Large") /\ serve h_prove [SData h_line] = None.
Proof. vm_compute. repeat split. Qed.

(** C49. The answer depends only on the first 4096 bytes delivered, if these are ASCII ... *)
Theorem C49_segmentation_partial : forall prove evs evs', ascii (first_4096 evs) -> first_4096 evs = first_4096 evs' ->
  serve prove evs = serve prove evs'.
Proof. exact serve_segments. Qed.
Print Assumptions C49_segmentation_partial.
(** ... and in any case segmentation only decides between the one answer and "Bad Request". *)
Theorem C49_segmentation_any_partial : forall prove evs evs', first_4096 evs = first_4096 evs' ->
  serve prove evs = serve prove evs' \/ serve prove evs = Some (Plain "400 Bad Request" "Bad Request") \/
  serve prove evs' = Some (Plain "400 Bad Request" "Bad Request").
Proof. exact serve_segments_any. Qed.
Print Assumptions C49_segmentation_any_partial.
(** The full statement is false (a character cut by a segment boundary). *)
Theorem C49_segmentation_refuted : ~ (forall prove evs evs', delivered evs = delivered evs' -> serve prove evs = serve prove evs').
Proof. exact segments_refuted. Qed.
Print Assumptions C49_segmentation_refuted.
Example C49_example : serve h_prove h_whole = Some (Proof [1; 2; 3] 3600) /\ serve h_prove h_split = Some (Plain "400 Bad Request" "Bad Request") /\
  serve h_prove (map (fun c => SData [c]) (h_line ++ [13; 10])) = Some (Proof [1; 2; 3] 3600).
Proof. vm_compute. repeat split. Qed.

(** C50. Every answer is one well-framed message whose body is the proof or the error text ... *)
Theorem C50_framed : forall prove evs r, serve prove evs = Some r -> Framed (render r) (match r with Plain _ b => bs b | Proof p _ => p end).
Proof. exact serve_framed. Qed.
Print Assumptions C50_framed.
(** ... which cannot be read as a message with another body, ... *)
Theorem C50_unambiguous : forall msg body body', Framed msg body -> Framed msg body' -> body = body'.
Proof. exact framed_unique. Qed.
Print Assumptions C50_unambiguous.
(** ... and it is one of six fixed messages, or the proof under a header that depends on nothing but
    the length and the time to live of the proof: no request byte gets into it. *)
Theorem C50_headers : forall prove evs r, serve prove evs = Some r ->
  In (render r) error_messages \/
  exists p ttl n ty num age, prove n ty = Some (p, ttl) /\ Decimal (N.of_nat (List.length p)) num /\ Decimal ttl age /\
    render r = http_message (proof_lines num age) p.
Proof. exact serve_headers. Qed.
Print Assumptions C50_headers.
(** The numerals are determined. *)
Theorem C50_numeral : forall n a b, Decimal n a -> Decimal n b -> a = b.
Proof. exact TextP.decimal_unique. Qed.
Print Assumptions C50_numeral.
Example C50_example : render (Proof [1; 2; 3] 3600) =
  bs "HTTP/1.1 200 OK" ++ [13; 10] ++ bs "Content-Length: 3" ++ [13; 10] ++ bs "Content-Type: application/octet-stream" ++ [13; 10] ++
  bs "Cache-Control: public, max-age=3600, s-maxage=3600" ++ [13; 10] ++ bs "Access-Control-Allow-Origin: *" ++ [13; 10; 13; 10; 1; 2; 3].
Proof. vm_compute. reflexivity. Qed.
