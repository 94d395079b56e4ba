(** Specification of a resolver which answers every question, of the questions a proof takes, and of a
    correctly signed tree of zones. *)
From Coq Require Import List NArith Permutation.
From Verif Require Import Base RRM SerM ValM NameSpec RecSpec ValSpec QueryM QuerySpec AcceptSpec.
Import ListNotations.
Local Open Scope N_scope.

(** ** Questions. [data n t]: the records, with TTLs, the resolver has for the question [n], [t]. *)
Section Questions.
  Variable data : list N -> N -> list (RR * N).

  (** Zone [k] signed some of the records for [n], [t]. *)
  Definition SignsFor (n : list N) (t : N) (k : list N) : Prop := exists rt, In rt (data n t) /\ In k (signer_of rt).
  (** The questions to be asked for a proof of [n0], [t0]: this one, and for every zone which signed
      anything its DNSKEYs and, but for the root, its DS records. *)
  Inductive Asked (n0 : list N) (t0 : N) : list N -> N -> Prop :=
  | Asked_first : Asked n0 t0 n0 t0
  | Asked_key n t k t' : Asked n0 t0 n t -> SignsFor n t k -> In t' (key_types k) -> Asked n0 t0 k t'.
  (** [keys] are these zones. *)
  Definition AllSigners (n0 : list N) (t0 : N) (keys : list (list N)) : Prop :=
    NoDup keys /\ forall k, In k keys <-> exists n t, Asked n0 t0 n t /\ SignsFor n t k.
  Definition questions (n0 : list N) (t0 : N) (keys : list (list N)) : list (list N * N) :=
    (n0, t0) :: flat_map (fun k => map (pair k) (key_types k)) keys.
  (** The resolver's messages [resp] are acceptable responses with these records. *)
  Definition Answers (dbg : bool) (n0 : list N) (t0 : N) (resp : list N -> N -> list N) : Prop :=
    forall n t, Asked n0 t0 n t ->
      is_bytes (resp n t) /\ length_of (resp n t) <= 65535 /\ Response (negb dbg) (resp n t) (data n t) /\
      (dbg = true -> Forall (fun rt => ~ oversized (fst rt)) (data n t)).
End Questions.

(** ** Zones *)

(** A zone: its name, DNSKEY RRset with RRSIGs, and the DS RRset with RRSIGs its parent has for it. *)
Record zone := { zn_name : list N; zn_keys : list dnskey; zn_ksigs : list rrsig; zn_ds : list ds; zn_dsigs : list rrsig }.
(** An RRset of an answer, with RRSIGs. *)
Record rset := { an_name : list N; an_ty : N; an_recs : list RR; an_sigs : list rrsig }.

Definition key_records (z : zone) : list RR := map RR_DnsKey (zn_keys z) ++ map RR_RRSig (zn_ksigs z).
Definition ds_records (z : zone) : list RR := map RR_DS (zn_ds z) ++ map RR_RRSig (zn_dsigs z).
Definition answer_records (answers : list rset) : list RR := flat_map (fun a => an_recs a ++ map RR_RRSig (an_sigs a)) answers.

Section Tree.
  Variable e : env.
  Variable zones : list zone.
  Variable answers : list rset.

  Definition is_root (z : zone) : Prop := zn_name z = [46].
  Definition vouching (z : zone) : list ds := if list_eq_dec N.eq_dec (zn_name z) [46] then root_anchors else zn_ds z.
  (** [p] is a zone above [n], or at [n]. *)
  Definition Above (n : list N) (p : zone) : Prop := In p zones /\ exists q, n = q ++ zn_name p.
  (** The RRSIG [s] over [rs], which is the RRset [n], [ty], is made and valid under the keys of [p]. *)
  Definition SetSig (p : zone) (n : list N) (ty : N) (rs : list RR) (s : rrsig) : Prop :=
    rs_name s = n /\ rs_ty s = ty /\ rs_key_name s = zn_name p /\ ValidSig e (fun _ => True) (zn_keys p) s rs.

  (** All signatures. *)
  Definition all_sigs : list rrsig := flat_map (fun z => zn_ksigs z ++ zn_dsigs z) zones ++ flat_map an_sigs answers.

  (** The DNSKEY RRset is signed with a key for which the delegation vouches: by the first RRSIG of a
      known algorithm; by one of them, and all are valid. *)
  Definition KeyVouched (z : zone) (s : rrsig) : Prop :=
    ValidSig e (DelegatedKey e (vouching z)) (zn_keys z) s (map RR_DnsKey (zn_keys z)).
  Definition FirstVouched (z : zone) : Prop := exists pre s post, zn_ksigs z = pre ++ s :: post /\ KeyVouched z s /\
    Forall (fun x => UnknownSig (DelegatedKey e (vouching z)) (zn_keys z) x (map RR_DnsKey (zn_keys z))) pre.
  Definition SomeVouched (z : zone) : Prop := (exists s, In s (zn_ksigs z) /\ KeyVouched z s) /\ Forall (fun s => ValidSig e (fun _ => True) (zn_keys z) s (map RR_DnsKey (zn_keys z))) (zn_ksigs z).
  Variable Vouched : zone -> Prop.

  Record WellSigned : Prop := {
    (** There is a root zone and another one, each zone once. *)
    ws_root : exists z, In z zones /\ is_root z;
    ws_other : exists z, In z zones /\ ~ is_root z;
    ws_names : NoDup (map zn_name zones);
    (** The keys of a zone are signed. *)
    ws_keys : forall z, In z zones ->
      Forall (fun k => dk_name k = zn_name z) (zn_keys z) /\
      Forall (fun s => rs_name s = zn_name z /\ rs_ty s = 48 /\ rs_key_name s = zn_name z) (zn_ksigs z) /\
      Vouched z;
    (** The delegation of a zone is signed by a zone above it. *)
    ws_ds : forall z, In z zones -> ~ is_root z ->
      Forall (fun d => ds_name d = zn_name z) (zn_ds z) /\ zn_ds z <> [] /\ zn_dsigs z <> [] /\
      exists p, Above (zn_name z) p /\ p <> z /\ Forall (SetSig p (zn_name z) 43 (map RR_DS (zn_ds z))) (zn_dsigs z);
    ws_no_ds : forall z, In z zones -> is_root z -> zn_ds z = [] /\ zn_dsigs z = [];
    (** There are answers, each RRset once, signed by a zone above; either in full or expanded from a wildcard. *)
    ws_some : answers <> [];
    ws_once : NoDup (map (fun a => (an_name a, an_ty a)) answers);
    ws_answers : forall a, In a answers ->
      ~ In (an_ty a) [43; 46; 48] /\ Forall (fun r => rr_name r = an_name a /\ rr_ty r = an_ty a) (an_recs a) /\
      an_recs a <> [] /\ an_sigs a <> [] /\
      exists p, Above (an_name a) p /\ Forall (SetSig p (an_name a) (an_ty a) (an_recs a)) (an_sigs a) /\ Forall Fits (an_sigs a);
    (** What is expanded from a wildcard is denied by one of the answers. *)
    ws_denied : forall a s pre l suf, In a answers -> In s (an_sigs a) -> an_ty a <> 47 ->
      LabelsOf (an_name a) (pre ++ l :: suf) -> N.of_nat (length suf) = rs_labels s ->
      exists b q, In b answers /\ an_name b = q ++ rs_key_name s /\
        ((exists n, In (RR_NSec n) (an_recs b) /\ nsec_strict n (dotted (l :: suf))) \/
         (exists n, In (RR_NSec3 n) (an_recs b) /\ nsec3_strict e n (dotted (l :: suf))));
    (** The zone of such an answer uses at most two sets of NSEC3 parameters. *)
    ws_params : forall a s pre l suf, In a answers -> In s (an_sigs a) -> an_ty a <> 47 ->
      LabelsOf (an_name a) (pre ++ l :: suf) -> N.of_nat (length suf) = rs_labels s ->
      exists p q : N * list N, forall b n sub, In b answers -> an_name b = sub ++ rs_key_name s -> In (RR_NSec3 n) (an_recs b) ->
      (n3_iters n, n3_salt n) = p \/ (n3_iters n, n3_salt n) = q;
    (** Every zone has a use. *)
    ws_used : forall z, In z zones ->
      (exists a s, In a answers /\ In s (an_sigs a) /\ rs_key_name s = zn_name z) \/
      (exists c s, In c zones /\ c <> z /\ In s (zn_dsigs c) /\ rs_key_name s = zn_name z);
    (** All signatures are valid at the same time. *)
    ws_window : forall a b, In a all_sigs -> In b all_sigs -> resolve_time (rs_inception a) < resolve_time (rs_expiration b) }.
End Tree.

(** [l'] is [l] with more elements, with [P], put in. *)
Inductive Adds {A} (P : A -> Prop) : list A -> list A -> Prop :=
| Adds_nil : Adds P [] []
| Adds_keep x l l' : Adds P l l' -> Adds P (x :: l) (x :: l')
| Adds_more x l l' : P x -> Adds P l l' -> Adds P l (x :: l').
(** A record for whose name and type there are no RRSIGs, as the CNAME which resolvers make up for a DNAME. *)
Definition Unsigned (zones : list zone) (answers : list rset) (r : RR) : Prop :=
  rr_ty r <> 46 /\ forall s, In s (all_sigs zones answers) -> rs_ty s = rr_ty r -> rs_name s <> rr_name r.
(** The resolver has the records of these zones and, for [n] and [ty], these answers; and unsigned records. *)
Definition Serves (zones : list zone) (answers : list rset) (n : list N) (ty : N) (data : list N -> N -> list (RR * N)) : Prop :=
  let has := Adds (Unsigned zones answers) in
  has (answer_records answers) (map fst (data n ty)) /\
  forall z, In z zones -> has (key_records z) (map fst (data (zn_name z) 48)) /\ (~ is_root z -> has (ds_records z) (map fst (data (zn_name z) 43))).

(** Asking the resolver for a proof of [n], [ty], in whatever segments its messages come, gives one: all of
    the questions are sent, in some order, and the proof is read back and validates with exactly the answers. *)
Definition Works (e : env) (dbg : bool) (zones : list zone) (answers : list rset) (n : list N) (ty : N) (resp : list N -> N -> list N) : Prop :=
  exists qs sent, Permutation qs (questions n ty (map zn_name zones)) /\
    Forall2 (fun q f => exists b, Query (fst q) (snd q) b /\ f = frame b) qs sent /\
    forall segs rest, concat segs = flat_map frame (map (fun q => resp (fst q) (snd q)) qs) ++ rest ->
    exists proof ttl, build_proof dbg 10 n ty segs = (Ok (proof, ttl), sent) /\
    forall dbg', exists inp fuel v, parse_rr_stream dbg' proof = Ok inp /\ verify_rr_stream e dbg' fuel inp = Ok v /\
      forall r, In r (vr_rrs v) <-> exists a, In a answers /\ In r (an_recs a) /\ an_ty a <> 47 /\ an_ty a <> 50.
