(** Specification of the HTTP server: what reaches one connection, and what that connection alone
    answers. *)
From Verif Require Import Base NameM RRM SerM ValM RecSpec ValSpec QueryM QuerySpec TextSpec HttpM HttpSpec LiveSpec ServerM.
From Coq Require Import String Permutation.
Local Open Scope N_scope.

(** ** What reaches connection [i]. [k] is the number of connections accepted so far. *)
Fixpoint client_of (i k : nat) (acts : list action) : list sock_event :=
  match acts with
  | [] => []
  | AcceptFails :: _ => []
  | Accept :: r => client_of i (S k) r
  | FromClient j ev :: r => (if Nat.eqb j i && Nat.ltb i k then [ev] else []) ++ client_of i k r
  | _ :: r => client_of i k r
  end.
Fixpoint resolver_of (i k : nat) (acts : list action) : list res_event :=
  match acts with
  | [] => []
  | AcceptFails :: _ => []
  | Accept :: r => resolver_of i (S k) r
  | FromResolver j ev :: r => (if Nat.eqb j i && Nat.ltb i k then [ev] else []) ++ resolver_of i k r
  | _ :: r => resolver_of i k r
  end.
Definition polls (i : nat) (acts : list action) : nat :=
  List.length (filter (fun a => match a with Poll j => Nat.eqb j i | _ => false end) acts).

(** ** What one connection does by itself *)

(** The segments which arrive on a connection to the resolver, if it is made. *)
Fixpoint segments (rs : list res_event) : list (list N) :=
  match rs with RBytes d :: r => d :: segments r | _ => [] end.
Definition built (dbg : bool) (rs : list res_event) (n : list N) (ty : N) : outcome unit (list N * N) * list N :=
  match rs with
  | RConnected :: r => (fst (build_proof dbg 10 n ty (segments r)), List.concat (snd (build_proof dbg 10 n ty (segments r))))
  | _ => (Err tt, [])
  end.
Definition no_proof : reply := Plain "404 Not Found" "Failed to generate proof for given domain".

(** With the client's stream [cs] and the resolver's [rs], [out] is written to the client and [sent] to
    the resolver. [serve] is the single connection of C48-C50, given the outcome of the proof builder. *)
Inductive Served (dbg : bool) (cs : list sock_event) (rs : list res_event) : list N -> list N -> Prop :=
| Served_silent : (forall prove, serve prove cs = None) -> Served dbg cs rs [] []
| Served_error r : (forall prove, serve prove cs = Some r) -> Served dbg cs rs (render r) []
| Served_asked n ty o sent out :
    (forall prove, serve prove cs = Some (match prove n ty with Some (p, ttl) => Proof p ttl | None => no_proof end)) ->
    built dbg rs n ty = (o, sent) ->
    out = match o with Ok (p, ttl) => render (Proof p ttl) | Err _ => render no_proof | _ => [] end ->
    Served dbg cs rs out sent.

(** ** What a connection may be waiting for, having got [cs] from the client and [rs] from the resolver *)
Inductive Waits (dbg : bool) (cs : list sock_event) (rs : list res_event) : Prop :=
| Waits_request : ~ In SError cs -> (forall line, ~ FirstLine (first_4096 cs) line) -> length_of (delivered cs) < 4096 -> Waits dbg cs rs
| Waits_connect n ty line : FirstLine (first_4096 cs) line -> AsksFor line n ty -> rs = [] -> Waits dbg cs rs
| Waits_response n ty line segs sent tr b rest : FirstLine (first_4096 cs) line -> AsksFor line n ty -> rs = RConnected :: map RBytes segs ->
    (* the builder took all the responses there are, and awaits more *)
    Driven dbg builder_init tr b -> Forall (fun c => is_ok (snd c) = true) tr -> awaiting_responses b = true ->
    List.concat segs = flat_map frame (map fst tr) ++ rest -> (~ exists m r, length_of m <= 65535 /\ rest = frame m ++ r) ->
    build_proof dbg 10 n ty segs = (Err tt, sent) -> Waits dbg cs rs.

(** How often a task has to be polled at most, to use up what has arrived. *)
Definition res_work (r : res_event) : nat := match r with RBytes d => S (List.length d) | _ => 1 end.
Definition work (cs : list sock_event) (rs : list res_event) : nat := List.length cs + list_sum (map res_work rs) + 3.

(** ** A connection which gets the proof it asked for *)

(** There is an order in which the questions about [n] and [ty] are put, one after another, such that a client with this
    request line receives, when the responses arrive in this order: 200, the length of the body, the least TTL, and a body
    which validates with exactly the answers. This whatever happens to other connections, and however the client's and the
    resolver's bytes are cut into segments. *)
Definition Delivers (e : env) (dbg : bool) (zones : list zone) (answers : list rset) (n : list N) (ty : N) (data : list N -> N -> list (RR * N))
    (resp : list N -> N -> list N) (line : list N) : Prop :=
  exists qs sent, Permutation qs (questions n ty (map zn_name zones)) /\ Forall2 (fun q f => exists b, Query (fst q) (snd q) b /\ f = frame b) qs sent /\
  forall acts later i t0 segs rest over, ~ In AcceptFails (acts ++ later) -> nth_error (sv_tasks (run_server dbg acts)) i = Some t0 ->
    client_of i 0 (acts ++ later) = client_of i 0 acts -> resolver_of i 0 (acts ++ later) = resolver_of i 0 acts ->
    ascii (first_4096 (client_of i 0 acts)) -> FirstLine (first_4096 (client_of i 0 acts)) line ->
    (forall d, In (RBytes d) (resolver_of i 0 acts) -> is_bytes d) ->
    resolver_of i 0 acts = RConnected :: map RBytes segs ++ over -> List.concat segs = flat_map frame (map (fun q => resp (fst q) (snd q)) qs) ++ rest ->
    (work (client_of i 0 acts) (resolver_of i 0 acts) <= polls i later)%nat ->
  exists t proof ttl num age v, nth_error (sv_tasks (run_server dbg (acts ++ later))) i = Some t /\ tk_ctl t = Ended /\
    tk_sent t = List.concat sent /\ tk_out t = http_message (proof_lines num age) proof /\ Decimal (length_of proof) num /\ Decimal ttl age /\
    is_min ttl (map snd (flat_map (fun q => data (fst q) (snd q)) qs)) /\
    (forall dbg', exists inp fuel, parse_rr_stream dbg' proof = Ok inp /\ verify_rr_stream e dbg' fuel inp = Ok v) /\
    forall r, In r (vr_rrs v) <-> exists a, In a answers /\ In r (an_recs a) /\ an_ty a <> 47 /\ an_ty a <> 50.
