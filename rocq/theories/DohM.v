(** Model of wasmpack/doh_lookup.js. Line numbers refer to that file. Strings are their UTF-8 octets;
    the JavaScript engine's [JSON.stringify(JSON.parse(..), null, 1)] and the text of the exception thrown
    when WASM code panics are parameters. *)
From Verif Require Import Base NameM WireM RRM SerM ValM QueryM JsonM WasmM.
From Coq Require Import String.
Local Open Scope N_scope.

(** doh_lookup.js:32 [btoa] (HTML standard: RFC 4648 section 4, with padding). *)
Definition b64_char (v : N) : N :=
  if v <? 26 then 65 + v else if v <? 52 then 97 + (v - 26) else if v <? 62 then 48 + (v - 52) else if v =? 62 then 43 else 47.
(** wasmpack/doh_lookup.js:32 [btoa]. *)
Fixpoint btoa (l : bytes) : bytes :=
  match l with
  | a :: b :: c :: t => b64_char (a / 4) :: b64_char (a mod 4 * 16 + b / 16) :: b64_char (b mod 16 * 4 + c / 64) :: b64_char (c mod 64) :: btoa t
  | [a; b] => [b64_char (a / 4); b64_char (a mod 4 * 16 + b / 16); b64_char (b mod 16 * 4); 61]
  | [a] => [b64_char (a / 4); b64_char (a mod 4 * 16); 61; 61]
  | [] => []
  end.
(** doh_lookup.js:33: [.replace(/\+/g, '-').replace(/\//g, '_').replace(/=/g, '')]. *)
Definition replace_all (c : N) (by_ : bytes) (l : bytes) : bytes := flat_map (fun x => if x =? c then by_ else [x]) l.
(** wasmpack/doh_lookup.js:33: all three replacements. *)
Definition b64url (query : bytes) : bytes := replace_all 61 [] (replace_all 47 [95] (replace_all 43 [45] (btoa query))).
(** doh_lookup.js:35: the URL. *)
Definition doh_url (endpoint query : bytes) : bytes := endpoint ++ bs "?dns=" ++ b64url query.

(** doh_lookup.js:35-39: what comes of a [fetch]: the octets of the body, or an exception (thrown by [fetch] or
    [arrayBuffer], or in line 37) with its text. *)
Inductive fetched := Body (b : bytes) | Failed (exn : bytes).
(** What comes of the promise [lookup_doh] returns; [JNever]: it is never settled.
    wasmpack/doh_lookup.js:8-61. *)
Inductive js_result := JText (s : bytes) | JUndefined | JRejected | JNever.
(** The type argument.
    wasmpack/doh_lookup.js:8, 12-21. *)
Inductive js_type := TyText (s : bytes) | TyNumber (n : N).

(** wasmpack/doh_lookup.js:24, 43, 52, 59: the error texts. *)
Definition err_text (s : string) : bytes := bs "{""error"":""" ++ bs s ++ bs """}".

Section Lookup.
  Variable e : env.
  Variable dbg : bool.
  Variable fuel : nat.                        (* for [verify_rr_stream] *)
  Variable reparse : bytes -> option bytes.   (* JSON.stringify(JSON.parse(..), null, 1); [None]: SyntaxError *)
  Variable trap : bytes.                      (* the text of the exception for a panic in WASM *)
  Variable fetch : nat -> bytes -> fetched.   (* the i-th fetch of a URL *)
  Variable endpoint : bytes.

  (** doh_lookup.js:43. *)
  Definition fetch_error (exn : bytes) : bytes := bs "{""error"":""DoH Query failed: " ++ exn ++ bs """}".
  (** doh_lookup.js:49-50. *)
  Definition check_proof (proof : bytes) : js_result :=
    match verify_byte_stream e dbg fuel proof with
    | Ok result => match reparse result with Some s => JText s | None => JRejected end
    | Err _ | Panic => JRejected
    | Loop => JNever
    end.
  (** doh_lookup.js:28-55 [send_next_query], at most [n] of them; [i] URLs fetched already. *)
  Fixpoint send_next_query (n : nat) (w : wasm) (pending : N) (i : nat) : js_result * list bytes :=
    match n with
    | O => (JNever, [])
    | S n' =>
        match get_next_query w with
        | (Some query, w) =>
            let pending := pending + 1 in
            let url := doh_url endpoint query in
            match fetch i url with
            | Failed exn => (JText (fetch_error exn), [url])
            | Body buf =>
                match process_query_response dbg w buf with
                | Ok w => let '(r, urls) := send_next_query n' w (pending - 1) (S i) in (r, url :: urls)
                | _ => (JText (fetch_error trap), [url])
                end
            end
        | (None, w) =>
            if pending =? 0 then
              match get_unverified_proof w with
              | Some proof => (check_proof proof, [])
              | None => (JText (err_text "Failed to build proof"), [])
              end
            else (JUndefined, [])
        end
    end.

  (** doh_lookup.js:12-20: the comparisons with [ty.toLowerCase()]. No other character than an ASCII letter is
      in lower case one of the letters compared with. *)
  Definition to_lower_case (s : bytes) : bytes := map (fun c => if (65 <=? c) && (c <=? 90) then c + 32 else c) s.
  (** wasmpack/doh_lookup.js:12, 14, 16, 18: one comparison. *)
  Definition is_word (ty : bytes) (w : string) : bool := bytes_eqb (to_lower_case ty) (bs w).
  (** wasmpack/doh_lookup.js:12-20: the chain of comparisons. *)
  Definition type_number (ty : bytes) : option N :=
    if is_word ty "txt" then Some 16
    else if is_word ty "tlsa" then Some 52
    else if is_word ty "a" then Some 1
    else if is_word ty "aaaa" then Some 28
    else None.

  (** doh_lookup.js:8-61 [lookup_doh]. A number has no [toLowerCase]: TypeError. *)
  Definition lookup_doh (n : nat) (domain : bytes) (ty : js_type) : js_result * list bytes :=
    let domain := if ends_with domain [dot] then domain else domain ++ [dot] in
    match ty with
    | TyNumber _ => (JRejected, [])
    | TyText ty =>
        match type_number ty with
        | Some ty =>
            match init_proof_builder domain ty with
            | Ok None => (JText (err_text "Bad domain"), [])
            | Ok (Some builder) => send_next_query n builder 0 0
            | _ => (JRejected, [])
            end
        | None => (JText (err_text "Unsupported Type"), [])
        end
    end.
End Lookup.
