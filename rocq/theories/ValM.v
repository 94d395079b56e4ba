(** Model of src/validation.rs. Line numbers refer to that file. The crate is modelled as compiled
    for use: [cfg(test)] and [cfg(fuzzing)] off. *)
From Verif Require Import Base NameM WireM RRM Base32M.
Local Open Scope N_scope.

(** The algorithms and keys handed to the crypto library (validation.rs:121-153). *)
Inductive sigalg := RSA_SHA256 | RSA_SHA512 | ECDSA_P256 | ECDSA_P384 | ED25519.
(** src/validation.rs:128, 139-144, 149: the keys handed to [ring]. *)
Inductive pubkey :=
| PK_RSA (n e : bytes)
| PK_raw (key : bytes).

(** A record which still needs a non-existence proof (validation.rs:353, 431): name, zone, type. *)
Notation need := (bytes * name * N)%type (only parsing).

(** Everything outside the crate, as an argument: the hash functions of [bitcoin_hashes]
    (src/crypto/hash.rs; a function of the concatenation of the [update]s), signature verification
    of [ring], and the tie-breaking of [sort_unstable_by] at validation.rs:445 (the theorems that
    need anything assume that it returns a permutation / a sorted permutation). *)
Record env := {
  e_sha1 : bytes -> bytes;
  e_sha256 : bytes -> bytes;
  e_sig : sigalg -> pubkey -> bytes -> bytes -> bool;   (* algorithm, key, message, signature *)
  e_sort_needs : list need -> list need }.

(** validation.rs:38-48 [ValidationError]. *)
Inductive verr := UnsupportedAlgorithm | Invalid.

(** validation.rs:18-34 [root_hints]. *)
Definition root_digest_19036 : bytes :=
  [73; 170; 193; 29; 123; 111; 100; 70; 112; 46; 84; 161; 96; 115; 113; 96; 122; 26; 65; 133; 82; 0;
   253; 44; 225; 205; 222; 50; 242; 78; 143; 181].
(** src/validation.rs:25. *)
Definition root_digest_20326 : bytes :=
  [224; 109; 68; 184; 11; 143; 29; 57; 169; 92; 11; 13; 124; 101; 208; 132; 88; 232; 128; 64; 155;
   188; 104; 52; 87; 16; 66; 55; 199; 248; 236; 141].
(** src/validation.rs:18-34 [root_hints]. *)
Definition root_hints : list ds :=
  [ {| ds_name := root_name; ds_key_tag := 19036; ds_alg := 8; ds_digest_type := 2;
       ds_digest := root_digest_19036 |};
    {| ds_name := root_name; ds_key_tag := 20326; ds_alg := 8; ds_digest_type := 2;
       ds_digest := root_digest_20326 |} ].

(** validation.rs:50-69 [bytes_to_rsa_pk]: (n, e). *)
Definition bytes_to_rsa_pk (pk : bytes) : option (bytes * bytes) :=
  match pk with
  | b0 :: b1 :: b2 :: _ :: _ =>                                            (* :52 *)
      let '(elen, pos) := if b0 =? 0 then (b1 * 256 + b2, 3) else (b0, 1) in   (* :54-62 *)
      if len pk <=? pos + elen then None                                   (* :64 *)
      else Some (dropN (pos + elen) pk, takeN elen (dropN pos pk))         (* :65-68 *)
  | _ => None
  end.

(** validation.rs:85-93: the RRSIG RDATA prefix of the signed data. *)
Definition sig_prefix (sig : rrsig) : bytes :=
  be16 (rs_ty sig) ++ [rs_alg sig] ++ [rs_labels sig] ++ be32 (rs_orig_ttl sig)
  ++ be32 (rs_expiration sig) ++ be32 (rs_inception sig) ++ be16 (rs_key_tag sig)
  ++ write_name (rs_key_name sig).

(** validation.rs:98-118: what one record adds to the signed data. In a debug build the assertion of
    line 107 and the u16 additions of [write_data] can panic. *)
Definition signed_record (dbg : bool) (sig : rrsig) (r : RR) : outcome verr bytes :=
  let record_labels := labels (rr_name r) in
  nm <- (if negb (rr_ty r =? T_NSEC) && negb (record_labels =? rs_labels sig) then
           if record_labels <? rs_labels sig then Err Invalid
           else match trailing_n_labels (rr_name r) (rs_labels sig) with
                | Some n => Ok ([1; 42] ++ write_name n)
                | None => if dbg then Panic else Err Invalid
                end
         else Ok (write_name (rr_name r))) ;;
  if dbg && write_data_overflows r then Panic
  else Ok (nm ++ be16 (rr_ty r) ++ be16 1 ++ be32 (rs_orig_ttl sig) ++ write_data r).

(** validation.rs:97-119: the loop over the (sorted) records. *)
Fixpoint signed_records (dbg : bool) (sig : rrsig) (rs : list RR) : outcome verr bytes :=
  match rs with
  | [] => Ok []
  | r :: t =>
      a <- signed_record dbg sig r ;;
      b <- signed_records dbg sig t ;;
      Ok (a ++ b)
  end.

(** validation.rs:121-154: the call into the crypto library for one key. *)
Definition check_sig (e : env) (sig : rrsig) (k : dnskey) (msg : bytes) : outcome verr unit :=
  let go alg pk := if e_sig e alg pk msg (rs_signature sig) then Ok tt else Err Invalid in
  if (rs_alg sig =? 8) || (rs_alg sig =? 10) then
    match bytes_to_rsa_pk (dk_pubkey k) with
    | Some (n, ex) => go (if rs_alg sig =? 8 then RSA_SHA256 else RSA_SHA512) (PK_RSA n ex)
    | None => Err Invalid
    end
  else if (rs_alg sig =? 13) || (rs_alg sig =? 14) then
    go (if rs_alg sig =? 13 then ECDSA_P256 else ECDSA_P384) (PK_raw (4 :: dk_pubkey k))
  else if rs_alg sig =? 15 then go ED25519 (PK_raw (dk_pubkey k))
  else Err UnsupportedAlgorithm.

(** validation.rs:78-83: the key is one the loop does not skip. *)
Definition key_usable (sig : rrsig) (k : dnskey) : bool :=
  (key_tag k =? rs_key_tag sig) && (dk_protocol k =? 3)
  && negb (N.land (dk_flags k) 256 =? 0) && (dk_alg k =? rs_alg sig).

(** validation.rs:77-173: the loop over the keys; the first usable key decides. *)
Fixpoint verify_with_keys (e : env) (dbg : bool) (sig : rrsig) (keys : list dnskey) (records : list RR)
    : outcome verr unit :=
  match keys with
  | [] => Err Invalid                                                       (* :173 *)
  | k :: t =>
      if key_usable sig k then
        body <- signed_records dbg sig (sort_by rr_cmp records) ;;          (* :95-119 *)
        check_sig e sig k (sig_prefix sig ++ body)
      else verify_with_keys e dbg sig t records
  end.

(** validation.rs:71-174 [verify_rrsig]. Both instances (RR = RR and RR = DnsKey) are this function,
    the latter with its records wrapped in [RR_DnsKey]. *)
Definition verify_rrsig (e : env) (dbg : bool) (sig : rrsig) (keys : list dnskey) (records : list RR)
    : outcome verr unit :=
  if existsb (fun r => negb (rs_ty sig =? rr_ty r)) records then Err Invalid  (* :74-76 *)
  else verify_with_keys e dbg sig keys records.

(** validation.rs:208-212: the hashed form of a key. *)
Definition dnskey_digest_input (k : dnskey) : bytes :=
  write_name (dk_name k) ++ be16 (dk_flags k) ++ [dk_protocol k] ++ [dk_alg k] ++ dk_pubkey k.

(** validation.rs:198 *)
Definition trust_sha1 (dses : list ds) : bool :=
  forallb (fun d => negb (ds_digest_type d =? 2) && negb (ds_digest_type d =? 4)) dses.

(** validation.rs:200-217: does this DS validate this key (one iteration of the inner loop)? *)
Definition ds_matches (e : env) (tsha1 : bool) (k : dnskey) (d : ds) : bool :=
  (ds_alg d =? dk_alg k) && (key_tag k =? ds_key_tag d)
  && (if (ds_digest_type d =? 1) && tsha1 then bytes_eqb (e_sha1 e (dnskey_digest_input k)) (ds_digest d)
      else if ds_digest_type d =? 2 then bytes_eqb (e_sha256 e (dnskey_digest_input k)) (ds_digest d)
      else false).

(** validation.rs:196-220 *)
Definition validated_dnskeys (e : env) (dses : list ds) (records : list dnskey) : list dnskey :=
  filter (fun k => existsb (ds_matches e (trust_sha1 dses) k) dses) records.

(** validation.rs:222-243: the loop over the signatures. *)
Fixpoint verify_dnskey_sigs (e : env) (dbg : bool) (sigs : list rrsig) (keys records : list dnskey)
    (found_unsupported : bool) : outcome verr rrsig :=
  match sigs with
  | [] => Err (if found_unsupported then UnsupportedAlgorithm else Invalid)
  | s :: t =>
      match verify_rrsig e dbg s keys (map RR_DnsKey records) with
      | Ok _ => Ok s
      | Err UnsupportedAlgorithm => verify_dnskey_sigs e dbg t keys records true
      | Err Invalid => Err Invalid
      | Panic => Panic
      | Loop => Loop
      end
  end.

(** validation.rs:177-244 [verify_dnskeys]. *)
Definition verify_dnskeys (e : env) (dbg : bool) (sigs : list rrsig) (dses : list ds) (records : list dnskey)
    : outcome verr rrsig :=
  if is_nil dses then Err Invalid                                           (* :193 *)
  else if negb (existsb (fun d => (ds_digest_type d =? 1) || (ds_digest_type d =? 2)
                                  || (ds_digest_type d =? 4)) dses)
       then Err UnsupportedAlgorithm                                        (* :194 *)
  else verify_dnskey_sigs e dbg sigs (validated_dnskeys e dses records) records false.

(** validation.rs:282-291 [resolve_time]. *)
Definition resolve_time (t : N) : N :=
  if t <? 60 * 60 * 24 * 365 * 27 then t + 4294967295 else t.

(** validation.rs:303-318: the inner loop of [nsec_ord]. *)
Fixpoint label_ord (a b : bytes) : comparison :=
  match a, b with
  | [], [] => Eq
  | _ :: _, [] => Gt
  | [], _ :: _ => Lt
  | x :: a', y :: b' =>
      let x := ascii_lower x in
      let y := ascii_lower y in
      if negb (x =? y) then x ?= y else label_ord a' b'
  end.
(** validation.rs:296-322: the outer loop of [nsec_ord]. *)
Fixpoint labels_ord (a b : list bytes) : comparison :=
  match a, b with
  | [], [] => Eq
  | _ :: _, [] => Gt
  | [], _ :: _ => Lt
  | x :: a', y :: b' =>
      match label_ord x y with
      | Eq => labels_ord a' b'
      | c => c
      end
  end.
(** validation.rs:293-323 [nsec_ord]; [rsplit] yields the [split] pieces in reverse. *)
Definition nsec_ord (a b : bytes) : comparison := labels_ord (rev (split_on dot a)) (rev (split_on dot b)).
(** validation.rs:324-326 [nsec_ord_extra]. *)
Definition nsec_ord_extra (a b : need) : comparison := nsec_ord (fst (fst a)) (fst (fst b)).

(** The record filters of validation.rs:368-373, 385-391. *)
Definition as_rrsig (r : RR) : list rrsig := match r with RR_RRSig s => [s] | _ => [] end.
(** src/validation.rs:372. *)
Definition as_dnskey (r : RR) : list dnskey := match r with RR_DnsKey k => [k] | _ => [] end.
(** src/validation.rs:408-412: the DS records. *)
Definition as_ds (r : RR) : list ds := match r with RR_DS d => [d] | _ => [] end.
(** src/validation.rs:448. *)
Definition as_nsec (r : RR) : list nsec := match r with RR_NSec n => [n] | _ => [] end.
(** src/validation.rs:461. *)
Definition as_nsec3 (r : RR) : list nsec3 := match r with RR_NSec3 n => [n] | _ => [] end.
(** src/validation.rs:369, 386. *)
Definition rrsigs (inp : list RR) : list rrsig := flat_map as_rrsig inp.
(** :368-370 *)
Definition dnskey_rrsigs (inp : list RR) (zone : name) : list rrsig :=
  filter (fun s => bytes_eqb (rs_name s) zone && (rs_ty s =? T_DNSKEY)) (rrsigs inp).
(** :371-373 *)
Definition zone_dnskeys (inp : list RR) (zone : name) : list dnskey :=
  filter (fun k => bytes_eqb (dk_name k) zone) (flat_map as_dnskey inp).
(** :385-387 *)
Definition zone_rrsigs (inp : list RR) (zone : name) : list rrsig :=
  filter (fun s => bytes_eqb (rs_key_name s) zone && negb (rs_ty s =? T_DNSKEY)) (rrsigs inp).
(** :390-391 *)
Definition covered (inp : list RR) (s : rrsig) : list RR :=
  filter (fun r => bytes_eqb (rr_name r) (rs_name s) && (rr_ty r =? rs_ty s)) inp.

(** The local variables of [verify_rr_stream] (validation.rs:351-357). [v_pending] is the vector with
    its last element first; each entry's iterator (lines 408-413) is the list it yields. *)
Record vstate := {
  v_zone : name;
  v_res : list RR;
  v_needs : list need;
  v_pending : list (name * list ds);
  v_inception : N;
  v_expiry : N;
  v_ttl : N }.

(** validation.rs:351-357 *)
Definition vinit : vstate :=
  {| v_zone := root_name; v_res := []; v_needs := []; v_pending := [];
     v_inception := 0; v_expiry := 2 ^ 64 - 1; v_ttl := 2 ^ 32 - 1 |}.

(** validation.rs:382-384 and 400-402. *)
Definition note_sig (s : rrsig) (st : vstate) : vstate :=
  {| v_zone := v_zone st; v_res := v_res st; v_needs := v_needs st; v_pending := v_pending st;
     v_inception := N.max (v_inception st) (resolve_time (rs_inception s));
     v_expiry := N.min (v_expiry st) (resolve_time (rs_expiration s));
     v_ttl := N.min (v_ttl st) (rs_orig_ttl s) |}.

(** validation.rs:407-414 *)
Definition push_ds (inp : list RR) (s : rrsig) (st : vstate) : vstate :=
  if existsb (fun p => bytes_eqb (fst p) (rs_name s)) (v_pending st) then st
  else {| v_zone := v_zone st; v_res := v_res st; v_needs := v_needs st;
          v_pending := (rs_name s, flat_map as_ds (covered inp s)) :: v_pending st;
          v_inception := v_inception st; v_expiry := v_expiry st; v_ttl := v_ttl st |}.

(** validation.rs:433-435 *)
Definition add_records (rs : list RR) (res : list RR) : list RR :=
  fold_left (fun acc r => if existsb (rr_eqb r) acc then acc else acc ++ [r]) rs res.

(** validation.rs:417-432: the wildcard bookkeeping. [rrsig.labels + 1] (u8): in a debug build it
    panics on overflow, in a release build it wraps. *)
Definition wildcard_need (dbg : bool) (s : rrsig) : outcome verr (list need) :=
  if negb (rs_labels s =? labels (rs_name s)) && negb (rs_ty s =? T_NSEC) then
    if rs_ty s =? T_NSEC3 then Err Invalid
    else if dbg && (255 <=? rs_labels s) then Panic
    else match trailing_n_labels (rs_name s) (as_u8 (rs_labels s + 1)) with
         | Some n => Ok [(n, rs_key_name s, rs_ty s)]
         | None => Err Invalid
         end
  else Ok [].

(** validation.rs:389-438: one iteration of the loop over the zone's signatures. *)
Definition sig_step (e : env) (dbg : bool) (inp : list RR) (zone : name) (s : rrsig) (st : vstate)
    : outcome verr vstate :=
  if negb (ends_with (rs_name s) zone) then Err Invalid                     (* :389 *)
  else match verify_rrsig e dbg s (zone_dnskeys inp zone) (covered inp s) with   (* :392 *)
  | Panic => Panic
  | Loop => Loop
  | Err UnsupportedAlgorithm => Ok st                                       (* :394 *)
  | Err Invalid => Err Invalid
  | Ok _ =>
      let st := note_sig s st in
      if (rs_ty s =? T_RRSIG) || (rs_ty s =? T_DNSKEY) then Err Invalid     (* :405 *)
      else if rs_ty s =? T_DS then Ok (push_ds inp s st)
      else
        nd <- wildcard_need dbg s ;;
        Ok {| v_zone := v_zone st; v_res := add_records (covered inp s) (v_res st);
              v_needs := v_needs st ++ nd; v_pending := v_pending st;
              v_inception := v_inception st; v_expiry := v_expiry st; v_ttl := v_ttl st |}
  end.

(** validation.rs:385-438 *)
Fixpoint sigs_loop (e : env) (dbg : bool) (inp : list RR) (zone : name) (sigs : list rrsig) (st : vstate)
    : outcome verr vstate :=
  match sigs with
  | [] => Ok st
  | s :: t => st' <- sig_step e dbg inp zone s st ;; sigs_loop e dbg inp zone t st'
  end.

(** validation.rs:359-366: choose the zone. *)
Definition pop_zone (st : vstate) : vstate * option (list ds) :=
  match v_pending st with
  | (z, dses) :: rest =>
      ({| v_zone := z; v_res := v_res st; v_needs := v_needs st; v_pending := rest;
          v_inception := v_inception st; v_expiry := v_expiry st; v_ttl := v_ttl st |}, Some dses)
  | [] => (st, None)
  end.

(** validation.rs:359-439: one iteration of ['next_zone]. The [None] case under a non-root zone
    (lines 378-379) contradicts the loop condition and is never reached. *)
Definition zone_step (e : env) (dbg : bool) (inp : list RR) (st : vstate) : outcome verr vstate :=
  let '(st, next_ds) := pop_zone st in
  let zone := v_zone st in
  match (if bytes_eqb zone root_name then Some root_hints else next_ds) with
  | None => Panic
  | Some dses =>
      s <- verify_dnskeys e dbg (dnskey_rrsigs inp zone) dses (zone_dnskeys inp zone) ;;
      sigs_loop e dbg inp zone (zone_rrsigs inp zone) (note_sig s st)
  end.

(** validation.rs:358: the ['next_zone] loop; [Loop] when the fuel runs out. *)
Fixpoint zone_loop (e : env) (dbg : bool) (inp : list RR) (fuel : nat) (st : vstate) : outcome verr vstate :=
  if bytes_eqb (v_zone st) root_name || negb (is_nil (v_pending st)) then
    match fuel with
    | O => Loop
    | S f => st' <- zone_step e dbg inp st ;; zone_loop e dbg inp f st'
    end
  else Ok st.

(** validation.rs:451-454: this NSEC discharges the need for (name, ty). *)
Definition nsec_matches (n : nsec) (nm : bytes) : bool := bytes_eqb (ns_name n) nm.
(** src/validation.rs:453-454 [name_contained]. *)
Definition nsec_contained (n : nsec) (nm : bytes) : bool :=
  match nsec_ord (ns_name n) nm with Gt => false | _ => true end
  && match nsec_ord (ns_next n) nm with Gt => true | _ => false end.
(** src/validation.rs:455. *)
Definition nsec_proves (nm : bytes) (ty : N) (n : nsec) : bool :=
  (nsec_matches n nm && negb (mask_contains (ns_types n) ty)) || nsec_contained n nm.
(** validation.rs:455-456 and 519-520: [retain] after a proof was found. *)
Definition retain_needs (nm : bytes) (matches : bool) (types : bytes) (needs : list need) : list need :=
  filter (fun nd => negb (bytes_eqb (fst (fst nd)) nm) || (matches && mask_contains types (snd nd))) needs.
(** validation.rs:447-449, 460-462. *)
Definition nsec_search (res : list RR) (zone : name) : list nsec :=
  filter (fun n => ends_with (ns_name n) zone) (flat_map as_nsec res).
(** src/validation.rs:460-462 [nsec3_search]. *)
Definition nsec3_search (res : list RR) (zone : name) : list nsec3 :=
  filter (fun n => ends_with (n3_name n) zone) (flat_map as_nsec3 res).

(** validation.rs:477-485: the iterated, salted SHA-1 (one hash for 0 iterations). *)
Fixpoint nsec3_iter (e : env) (salt : bytes) (n : nat) (h : bytes) : bytes :=
  match n with
  | O => h
  | S n' => nsec3_iter e salt n' (e_sha1 e (h ++ salt))
  end.
(** src/validation.rs:477-485: the iterated hash. *)
Definition nsec3_hash (e : env) (nm salt : bytes) (iters : N) : bytes :=
  nsec3_iter e salt (N.to_nat iters) (e_sha1 e (write_name nm ++ salt)).

(** validation.rs:465-493: the table from parameters to hash of the name, at most two entries. *)
Definition n3_params_eqb (n : nsec3) (p : N * bytes * bytes) : bool :=
  (fst (fst p) =? n3_iters n) && bytes_eqb (snd (fst p)) (n3_salt n).
(** src/validation.rs:465-492 [nsec3params_to_name_hash]. *)
Fixpoint nsec3_table (e : env) (nm : bytes) (ns : list nsec3) (tbl : list (N * bytes * bytes))
    : list (N * bytes * bytes) :=
  match ns with
  | [] => tbl
  | n :: t =>
      if 2500 <? n3_iters n then nsec3_table e nm t tbl
      else if negb (n3_algo n =? 1) then nsec3_table e nm t tbl
      else if existsb (n3_params_eqb n) tbl then nsec3_table e nm t tbl
      else let tbl' := tbl ++ [(n3_iters n, n3_salt n, nsec3_hash e nm (n3_salt n) (n3_iters n))] in
           if 2 <=? len tbl' then tbl' else nsec3_table e nm t tbl'
  end.

(** validation.rs:495-518: this NSEC3, with the hash from the table, discharges the need; the result
    is [Some hash_matches]. Line 508-509: a name without '.' (impossible for [valid_name]) would
    fail the debug assertion; here it decodes the empty string as the release build does. *)
Definition nsec3_proves (tbl : list (N * bytes * bytes)) (ty : N) (n : nsec3) : option bool :=
  if negb (n3_flags n =? 0) then None
  else if negb (n3_algo n =? 1) then None
  else match find (n3_params_eqb n) tbl with
  | None => None
  | Some (_, _, h) =>
      let start32 := match split_once dot (n3_name n) with Some (a, _) => a | None => [] end in
      match b32_decode start32 with
      | None => None
      | Some start =>
          if negb (len start =? 20) || negb (len (n3_next_hash n) =? 20) then None
          else
            let hash_matches := bytes_eqb start h in
            let hash_contained :=
              match bytes_cmp start h with Gt => false | _ => true end
              && match bytes_cmp (n3_next_hash n) h with Gt => true | _ => false end in
            if (hash_matches && negb (mask_contains (n3_types n) ty)) || hash_contained
            then Some hash_matches else None
      end
  end.
(** validation.rs:494-523: the first NSEC3 that discharges the need. *)
Fixpoint nsec3_find (tbl : list (N * bytes * bytes)) (ty : N) (ns : list nsec3) : option (nsec3 * bool) :=
  match ns with
  | [] => None
  | n :: t => match nsec3_proves tbl ty n with
              | Some m => Some (n, m)
              | None => nsec3_find tbl ty t
              end
  end.

(** validation.rs:446-525: the body of ['proof_search_loop]: the needs left after this one was
    discharged, or [None] for the [return Err(Invalid)] of line 524. *)
Definition discharge (e : env) (res : list RR) (nd : need) (needs : list need) : option (list need) :=
  let '(nm, zone, ty) := nd in
  match find (nsec_proves nm ty) (nsec_search res zone) with
  | Some n => Some (retain_needs nm (nsec_matches n nm) (ns_types n) needs)
  | None =>
      let ns := nsec3_search res zone in
      match nsec3_find (nsec3_table e nm ns []) ty ns with
      | Some (n, m) => Some (retain_needs nm m (n3_types n) needs)
      | None => None
      end
  end.
(** validation.rs:446: the loop; the needs are the vector with its last element first. Each
    iteration removes at least the popped need, so fuel [length needs] suffices. *)
Fixpoint proof_loop (e : env) (res : list RR) (fuel : nat) (needs : list need) : outcome verr unit :=
  match needs with
  | [] => Ok tt
  | nd :: t =>
      match fuel with
      | O => Loop
      | S f => match discharge e res nd t with
               | Some t' => proof_loop e res f t'
               | None => Err Invalid
               end
      end
  end.

(** validation.rs:252-280 [VerifiedRRStream]. *)
Record verified := { vr_rrs : list RR; vr_valid_from : N; vr_expires : N; vr_max_cache_ttl : N }.

(** validation.rs:441-532: everything after the zone loop. *)
Definition finish_verify (e : env) (st : vstate) : outcome verr verified :=
  if is_nil (v_res st) then Err Invalid                                      (* :441 *)
  else if v_expiry st <=? v_inception st then Err Invalid                    (* :442 *)
  else
    let sorted := e_sort_needs e (v_needs st) in                             (* :445 *)
    _ <- proof_loop e (v_res st) (List.length sorted) (rev sorted) ;;
    Ok {| vr_rrs := filter (fun r => negb (rr_ty r =? T_NSEC) && negb (rr_ty r =? T_NSEC3)) (v_res st);
          vr_valid_from := v_inception st; vr_expires := v_expiry st; vr_max_cache_ttl := v_ttl st |}.

(** validation.rs:350-533 [verify_rr_stream]; [fuel] bounds the number of zones visited ([Loop] if it
    runs out). *)
Definition verify_rr_stream (e : env) (dbg : bool) (fuel : nat) (inp : list RR) : outcome verr verified :=
  st <- zone_loop e dbg inp fuel vinit ;; finish_verify e st.

(** validation.rs:549-551, 557-559: the first CNAME at / DNAME suffixing the name. *)
Definition find_cname (rrs : list RR) (nm : name) : option cname :=
  match flat_map (fun r => match r with RR_CName c => if bytes_eqb (cn_name c) nm then [c] else [] | _ => [] end) rrs with
  | c :: _ => Some c
  | [] => None
  end.
(** src/validation.rs:556-559. *)
Definition find_dname (rrs : list RR) (nm : name) : option dname :=
  match flat_map (fun r => match r with RR_DName d => if ends_with nm (dn_name d) then [d] else [] | _ => [] end) rrs with
  | d :: _ => Some d
  | [] => None
  end.
(** validation.rs:545-575 [resolve_name]; [Loop] when the fuel runs out. The [expect] of line 561
    cannot fire: the filter of line 558 is the same suffix test. *)
Fixpoint resolve_name (rrs : list RR) (fuel : nat) (nm : name) : outcome unit (list RR) :=
  match fuel with
  | O => Loop
  | S f =>
      match find_cname rrs nm with
      | Some c => resolve_name rrs f (cn_canonical c)
      | None =>
          match find_dname rrs nm with
          | Some d =>
              match strip_suffix nm (dn_name d) with
              | None => Panic
              | Some prefix =>
                  match name_try_from (prefix ++ dn_delegation d) with
                  | Some n => resolve_name rrs f n
                  | None => Ok []
                  end
              end
          | None => Ok (filter (fun r => bytes_eqb (rr_name r) nm) rrs)
          end
      end
  end.
