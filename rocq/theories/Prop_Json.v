(** Properties C51 and C52: the JSON forms of records and of verification results. [Json text v] says
    that [text] is a JSON text (RFC 8259) denoting [v], [Describes r v] that [v] is an object with
    exactly the documented members, each showing the field of [r] it is named after. *)
From Verif Require Import Base NameM WireM RRM SerM ValM NameSpec RecSpec ValSpec ValW TextSpec JsonM JsonSpec JsonP JsonP2 JsonP3 JsonP4 JsonP5 JsonP6 JsonP7 JsonW.
From Coq Require Import String.
Local Open Scope N_scope.

(** A text denotes one value only. *)
Theorem C51_one_value : forall s v v', Json s v -> Json s v' -> v = v'.
Proof. exact json_unique. Qed.
Print Assumptions C51_one_value.

(** C51. The JSON of every record the library can hold describes it, unless it is an RRSIG or one of
    its names contains a backslash: *)
Theorem C51_json_partial : forall r, Held r -> ~ is_rrsig r -> no_backslash r -> exists v, Json (rr_json r) v /\ Describes r v.
Proof. exact record_json_if. Qed.
Print Assumptions C51_json_partial.
(** without these exceptions the statement is false, ... *)
Theorem C51_json_refuted : ~ (forall r, Held r -> exists v, Json (rr_json r) v /\ Describes r v).
Proof. exact json_refuted. Qed.
Print Assumptions C51_json_refuted.
(** ... for each and every exception, ... *)
Theorem C51_exactly : forall r, Held r -> ((exists v, Json (rr_json r) v /\ Describes r v) <-> ~ is_rrsig r /\ no_backslash r).
Proof. exact record_json. Qed.
Print Assumptions C51_exactly.
(** ... and an RRSIG's is never JSON at all. *)
Theorem C51_rrsig_refuted : forall x v, name_try_from (rs_name x) = Some (rs_name x) -> ~ Json (rr_json (RR_RRSig x)) v.
Proof. exact rrsig_not_json. Qed.
Print Assumptions C51_rrsig_refuted.
(** In general the escapes in names are undone: whatever value the JSON of a record has, it is this one. *)
Theorem C51_reads : forall r v, Held r -> ~ is_rrsig r -> Json (rr_json r) v -> ReadsAs r v.
Proof. exact record_reads. Qed.
Print Assumptions C51_reads.
(** The description leaves nothing out: a value describes one record only, and records are equal if their JSON is. *)
Theorem C51_describes_one : forall r r' v, Held r -> Held r' -> Describes r v -> Describes r' v -> r = r'.
Proof. exact describes_inj. Qed.
Print Assumptions C51_describes_one.
Theorem C51_injective : forall r r', Held r -> Held r' -> ~ is_rrsig r -> no_backslash r -> ~ is_rrsig r' -> no_backslash r' ->
  rr_json r = rr_json r' -> r = r'.
Proof. exact json_injective. Qed.
Print Assumptions C51_injective.

Example C51_example :
  rr_json (w_a "x.a.") = bs "{""type"":""a"",""name"":""x.a."",""address"":[127, 0, 0, 1]}" /\
  rr_json (j_txt (bs "hello, world")) = bs "{""type"":""txt"",""name"":""x.a."",""contents"":""hello, world""}" /\
  rr_json (j_txt [34; 92; 10]) = bs "{""type"":""txt"",""name"":""x.a."",""contents"":[34, 92, 10]}" /\
  rr_json (j_txt [128; 1]) = bs "{""type"":""txt"",""name"":""x.a."",""contents"":[128, 1]}" /\
  rr_json j_bad = bs "{""type"":""a"",""name"":""\q."",""address"":[127, 0, 0, 1]}".
Proof. repeat split; vm_compute; reflexivity. Qed.
(** A JSON reader ([pv] of JsonP, complete for [Json]) on these. *)
Example C51_example_wrong :
  pv 40 (rr_json (w_a "x.a.")) = Some (JObj [(bs "type", JStr (bs "a")); (bs "name", JStr (bs "x.a."));
    (bs "address", JArr (map JNum [bs "127"; bs "0"; bs "0"; bs "1"]))], []) /\
  pv 40 (rr_json j_wrong) = Some (JObj [(bs "type", JStr (bs "a")); (bs "name", JStr [10; 46]);
    (bs "address", JArr (map JNum [bs "127"; bs "0"; bs "0"; bs "1"]))], []) /\
  pv 40 (rr_json j_bad) = None.
Proof. repeat split; vm_compute; reflexivity. Qed.

(** C52. Whatever [verify_byte_stream] returns is the JSON form of the error or of the result of
    verifying the records, provided no verified record contains a name with a backslash. *)
Theorem C52_json_partial : forall e dbg fuel stream text, is_bytes stream -> verify_byte_stream e dbg fuel stream = Ok text ->
  (exists rrs v, parse_rr_stream dbg stream = Ok rrs /\ verify_rr_stream e dbg fuel rrs = Ok v /\
    ((exists j, Json text j /\ DescribesResult v j) <-> Forall no_backslash (vr_rrs v))) \/
  (exists x j, Json text j /\ DescribesError x j /\
    ((x = Invalid /\ exists p, parse_rr_stream dbg stream = Err p) \/ exists rrs, parse_rr_stream dbg stream = Ok rrs /\ verify_rr_stream e dbg fuel rrs = Err x)).
Proof. exact byte_stream_json. Qed.
Print Assumptions C52_json_partial.
(** In general: if it is JSON at all, the records in it are those verified, with the escapes in names undone. *)
Theorem C52_reads : forall e dbg fuel stream text j, is_bytes stream -> verify_byte_stream e dbg fuel stream = Ok text -> Json text j ->
  (exists rrs v, parse_rr_stream dbg stream = Ok rrs /\ verify_rr_stream e dbg fuel rrs = Ok v /\ ReadsResult v j) \/
  (exists x, DescribesError x j /\ ((x = Invalid /\ exists p, parse_rr_stream dbg stream = Err p) \/ exists rrs, parse_rr_stream dbg stream = Ok rrs /\ verify_rr_stream e dbg fuel rrs = Err x)).
Proof. exact byte_stream_reads. Qed.
Print Assumptions C52_reads.
(** The full statement has no such proviso; it is false. *)
Theorem C52_json_refuted : ~ (forall e dbg fuel stream text, is_bytes stream -> verify_byte_stream e dbg fuel stream = Ok text -> exists v, Json text v).
Proof. exact stream_json_refuted. Qed.
Print Assumptions C52_json_refuted.

Example C52_example :
  verify_byte_stream toy_env false 10 (stream_of w_plain) = Ok (bs
    "{""valid_from"": 1000000000, ""expires"": 2000000000, ""max_cache_ttl"": 3600, ""verified_rrs"": [{""type"":""a"",""name"":""x.a."",""address"":[127, 0, 0, 1]}]}") /\
  verify_byte_stream toy_env false 10 (stream_of w_back) = Ok (bs
    "{""valid_from"": 1000000000, ""expires"": 2000000000, ""max_cache_ttl"": 3600, ""verified_rrs"": [{""type"":""a"",""name"":""\q.a."",""address"":[127, 0, 0, 1]}]}") /\
  verify_byte_stream toy_env false 10 [1; 2; 3] = Ok (bs "{""error"":""Invalid""}").
Proof. repeat split; vm_compute; reflexivity. Qed.
