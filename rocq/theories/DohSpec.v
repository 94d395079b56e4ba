(** Specification of a lookup by DNS over HTTPS (RFC 8484). *)
From Coq Require Import List NArith String.
From Verif Require Import Base NameSpec RecSpec ValM ValSpec CodecSpec QueryM QuerySpec JsonM JsonSpec WasmSpec DohM.
Import ListNotations.
Local Open Scope N_scope.

(** RFC 4648 section 5, without padding: the bits of the data and less than one character of zero bits, cut in
    groups of six. *)
Definition url_digit (c v : N) : Prop :=
  (65 <= c <= 90 /\ v = c - 65) \/ (97 <= c <= 122 /\ v = c - 71) \/ (48 <= c <= 57 /\ v = c + 4) \/ (c = 45 /\ v = 62) \/ (c = 95 /\ v = 63).
Definition Base64Url (text data : list N) : Prop :=
  exists values pad, Forall2 url_digit text values /\ (pad < 6)%nat /\ is_bytes data /\
    flat_map (bits_of 6) values = flat_map (bits_of 8) data ++ repeat false pad.
(** RFC 8484 section 4.1: a GET of the query [b]. *)
Definition GetUrl (endpoint b url : list N) : Prop := exists t, Base64Url t b /\ url = endpoint ++ bs "?dns=" ++ t.

(** The types supported, in any case. *)
Definition any_case (c d : N) : Prop := c = d \/ (65 <= c <= 90 /\ d = c + 32).
Definition TypeName (s : list N) (t : N) : Prop :=
  exists w, In (w, t) [("txt", 16); ("tlsa", 52); ("a", 1); ("aaaa", 28)]%string /\ Forall2 any_case s (bs w).

(** [fetch] gives, for [urls] in turn, the bodies [bodies]. *)
Definition Fetched (fetch : nat -> list N -> fetched) (urls bodies : list (list N)) : Prop :=
  List.length urls = List.length bodies /\
  forall i u b, nth_error urls i = Some u -> nth_error bodies i = Some b -> fetch i u = Body b.

(** A finished proof is verified and the JSON of the outcome reformatted. A panic, and text which is not JSON, reject the promise. *)
Inductive Checked (e : env) (dbg : bool) (fuel : nat) (reparse : list N -> option (list N)) (proof : list N) : js_result -> Prop :=
| Checked_text text s : verify_byte_stream e dbg fuel proof = Ok text -> reparse text = Some s -> Checked e dbg fuel reparse proof (JText s)
| Checked_no_json text : verify_byte_stream e dbg fuel proof = Ok text -> reparse text = None -> Checked e dbg fuel reparse proof JRejected
| Checked_panic : verify_byte_stream e dbg fuel proof = Panic -> Checked e dbg fuel reparse proof JRejected
| Checked_never : verify_byte_stream e dbg fuel proof = Loop -> Checked e dbg fuel reparse proof JNever.

Definition build_failed : list N := bs "{""error"":""Failed to build proof""}".
Definition unsupported : list N := bs "{""error"":""Unsupported Type""}".
Definition bad_domain : list N := bs "{""error"":""Bad domain""}".
Definition query_failed (exn : list N) : list N := bs "{""error"":""DoH Query failed: " ++ exn ++ bs """}".
(** Text which can stand between quotes in JSON as it is. *)
Definition Clean (s : list N) : Prop := Utf8 s /\ Forall (fun c => 32 <= c /\ c <> 34 /\ c <> 92) s.
