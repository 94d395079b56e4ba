(** Model of src/validation.rs which also says what is asked of the crypto library, in order, and when a
    zone is begun: the functions of ValM.v once more, statement by statement, with a log. Line numbers
    refer to src/validation.rs. *)
From Verif Require Import Base NameM WireM RRM Base32M ValM.
Local Open Scope N_scope.

(** validation.rs:128-153 (the signature checks, with their answers), 203-213 and 477-486 (the hashes),
    358 (a zone is begun), 446 (the search for a denial is begun). *)
Inductive event :=
| E_Zone (z : name)
| E_Search (nd : need)
| E_Sig (a : sigalg) (k : pubkey) (msg sig : bytes) (answer : bool)
| E_Sha1 (msg : bytes)
| E_Sha256 (msg : bytes).
(** What was asked so far, and the result. *)
Notation traced A := (list event * A)%type.

(** validation.rs:121-154, as [check_sig]. *)
Definition t_check_sig (e : env) (sig : rrsig) (k : dnskey) (msg : bytes) : traced (outcome verr unit) :=
  let go alg pk := let ok := e_sig e alg pk msg (rs_signature sig) in
                   ([E_Sig alg pk msg (rs_signature sig) ok], if ok then Ok tt else Err Invalid) in
  if (rs_alg sig =? 8) || (rs_alg sig =? 10) then
    match bytes_to_rsa_pk (dk_pubkey k) with
    | Some (n, ex) => go (if rs_alg sig =? 8 then RSA_SHA256 else RSA_SHA512) (PK_RSA n ex)
    | None => ([], Err Invalid)
    end
  else if (rs_alg sig =? 13) || (rs_alg sig =? 14) then
    go (if rs_alg sig =? 13 then ECDSA_P256 else ECDSA_P384) (PK_raw (4 :: dk_pubkey k))
  else if rs_alg sig =? 15 then go ED25519 (PK_raw (dk_pubkey k))
  else ([], Err UnsupportedAlgorithm).

(** validation.rs:77-173, as [verify_with_keys]. *)
Fixpoint t_verify_with_keys (e : env) (dbg : bool) (sig : rrsig) (keys : list dnskey) (records : list RR)
    : traced (outcome verr unit) :=
  match keys with
  | [] => ([], Err Invalid)
  | k :: t =>
      if key_usable sig k then
        match signed_records dbg sig (sort_by rr_cmp records) with
        | Ok body => t_check_sig e sig k (sig_prefix sig ++ body)
        | Err x => ([], Err x)
        | Panic => ([], Panic)
        | Loop => ([], Loop)
        end
      else t_verify_with_keys e dbg sig t records
  end.
(** validation.rs:71-174, as [verify_rrsig]. *)
Definition t_verify_rrsig (e : env) (dbg : bool) (sig : rrsig) (keys : list dnskey) (records : list RR)
    : traced (outcome verr unit) :=
  if existsb (fun r => negb (rs_ty sig =? rr_ty r)) records then ([], Err Invalid)
  else t_verify_with_keys e dbg sig keys records.

(** validation.rs:199-219: the loop over the DS records for one key; it ends at the first that matches. *)
Fixpoint t_ds_loop (e : env) (tsha1 : bool) (k : dnskey) (dses : list ds) : traced bool :=
  match dses with
  | [] => ([], false)
  | d :: t =>
      if (ds_alg d =? dk_alg k) && (key_tag k =? ds_key_tag d) then             (* :200-201 *)
        if (ds_digest_type d =? 1) && tsha1 then                                (* :203 *)
          if bytes_eqb (e_sha1 e (dnskey_digest_input k)) (ds_digest d) then ([E_Sha1 (dnskey_digest_input k)], true)
          else let '(evs, b) := t_ds_loop e tsha1 k t in (E_Sha1 (dnskey_digest_input k) :: evs, b)
        else if ds_digest_type d =? 2 then                                      (* :204 *)
          if bytes_eqb (e_sha256 e (dnskey_digest_input k)) (ds_digest d) then ([E_Sha256 (dnskey_digest_input k)], true)
          else let '(evs, b) := t_ds_loop e tsha1 k t in (E_Sha256 (dnskey_digest_input k) :: evs, b)
        else t_ds_loop e tsha1 k t                                              (* :206 *)
      else t_ds_loop e tsha1 k t
  end.
(** validation.rs:196-220, as [validated_dnskeys]. *)
Fixpoint t_validated (e : env) (dses : list ds) (records : list dnskey) : traced (list dnskey) :=
  match records with
  | [] => ([], [])
  | k :: t =>
      let '(evs, b) := t_ds_loop e (trust_sha1 dses) k dses in
      let '(evs', ks) := t_validated e dses t in
      (evs ++ evs', if b then k :: ks else ks)
  end.
(** validation.rs:222-243, as [verify_dnskey_sigs]. *)
Fixpoint t_verify_dnskey_sigs (e : env) (dbg : bool) (sigs : list rrsig) (keys records : list dnskey)
    (found_unsupported : bool) : traced (outcome verr rrsig) :=
  match sigs with
  | [] => ([], Err (if found_unsupported then UnsupportedAlgorithm else Invalid))
  | s :: t =>
      match t_verify_rrsig e dbg s keys (map RR_DnsKey records) with
      | (evs, Ok _) => (evs, Ok s)
      | (evs, Err UnsupportedAlgorithm) => let '(evs', r) := t_verify_dnskey_sigs e dbg t keys records true in (evs ++ evs', r)
      | (evs, Err Invalid) => (evs, Err Invalid)
      | (evs, Panic) => (evs, Panic)
      | (evs, Loop) => (evs, Loop)
      end
  end.
(** validation.rs:177-244, as [verify_dnskeys]. *)
Definition t_verify_dnskeys (e : env) (dbg : bool) (sigs : list rrsig) (dses : list ds) (records : list dnskey)
    : traced (outcome verr rrsig) :=
  if is_nil dses then ([], Err Invalid)
  else if negb (existsb (fun d => (ds_digest_type d =? 1) || (ds_digest_type d =? 2)
                                  || (ds_digest_type d =? 4)) dses)
       then ([], Err UnsupportedAlgorithm)
  else let '(evs, ks) := t_validated e dses records in
       let '(evs', r) := t_verify_dnskey_sigs e dbg sigs ks records false in (evs ++ evs', r).

(** validation.rs:389-438, as [sig_step]. *)
Definition t_sig_step (e : env) (dbg : bool) (inp : list RR) (zone : name) (s : rrsig) (st : vstate)
    : traced (outcome verr vstate) :=
  if negb (ends_with (rs_name s) zone) then ([], Err Invalid)
  else match t_verify_rrsig e dbg s (zone_dnskeys inp zone) (covered inp s) with
  | (evs, Panic) => (evs, Panic)
  | (evs, Loop) => (evs, Loop)
  | (evs, Err UnsupportedAlgorithm) => (evs, Ok st)
  | (evs, Err Invalid) => (evs, Err Invalid)
  | (evs, Ok _) =>
      (evs,
       let st := note_sig s st in
       if (rs_ty s =? T_RRSIG) || (rs_ty s =? T_DNSKEY) then Err Invalid
       else if rs_ty s =? T_DS then Ok (push_ds inp s st)
       else
         nd <- wildcard_need dbg s ;;
         Ok {| v_zone := v_zone st; v_res := add_records (covered inp s) (v_res st);
               v_needs := v_needs st ++ nd; v_pending := v_pending st;
               v_inception := v_inception st; v_expiry := v_expiry st; v_ttl := v_ttl st |})
  end.
(** validation.rs:385-438, as [sigs_loop]. *)
Fixpoint t_sigs_loop (e : env) (dbg : bool) (inp : list RR) (zone : name) (sigs : list rrsig) (st : vstate)
    : traced (outcome verr vstate) :=
  match sigs with
  | [] => ([], Ok st)
  | s :: t =>
      match t_sig_step e dbg inp zone s st with
      | (evs, Ok st') => let '(evs', r) := t_sigs_loop e dbg inp zone t st' in (evs ++ evs', r)
      | (evs, o) => (evs, o)
      end
  end.
(** validation.rs:359-439, as [zone_step]. *)
Definition t_zone_step (e : env) (dbg : bool) (inp : list RR) (st : vstate) : traced (outcome verr vstate) :=
  let '(st, next_ds) := pop_zone st in
  let zone := v_zone st in
  match (if bytes_eqb zone root_name then Some root_hints else next_ds) with
  | None => ([E_Zone zone], Panic)
  | Some dses =>
      match t_verify_dnskeys e dbg (dnskey_rrsigs inp zone) dses (zone_dnskeys inp zone) with
      | (evs, Ok s) => let '(evs', r) := t_sigs_loop e dbg inp zone (zone_rrsigs inp zone) (note_sig s st) in (E_Zone zone :: evs ++ evs', r)
      | (evs, Err x) => (E_Zone zone :: evs, Err x)
      | (evs, Panic) => (E_Zone zone :: evs, Panic)
      | (evs, Loop) => (E_Zone zone :: evs, Loop)
      end
  end.
(** validation.rs:358, as [zone_loop]. *)
Fixpoint t_zone_loop (e : env) (dbg : bool) (inp : list RR) (fuel : nat) (st : vstate) : traced (outcome verr vstate) :=
  if bytes_eqb (v_zone st) root_name || negb (is_nil (v_pending st)) then
    match fuel with
    | O => ([], Loop)
    | S f =>
        match t_zone_step e dbg inp st with
        | (evs, Ok st') => let '(evs', r) := t_zone_loop e dbg inp f st' in (evs ++ evs', r)
        | (evs, o) => (evs, o)
        end
    end
  else ([], Ok st).

(** validation.rs:480-485, as [nsec3_iter]. *)
Fixpoint t_nsec3_iter (e : env) (salt : bytes) (n : nat) (h : bytes) : traced bytes :=
  match n with
  | O => ([], h)
  | S n' => let '(evs, r) := t_nsec3_iter e salt n' (e_sha1 e (h ++ salt)) in (E_Sha1 (h ++ salt) :: evs, r)
  end.
(** validation.rs:477-486, as [nsec3_hash]. *)
Definition t_nsec3_hash (e : env) (nm salt : bytes) (iters : N) : traced bytes :=
  let '(evs, r) := t_nsec3_iter e salt (N.to_nat iters) (e_sha1 e (write_name nm ++ salt)) in (E_Sha1 (write_name nm ++ salt) :: evs, r).
(** validation.rs:465-493, as [nsec3_table]. *)
Fixpoint t_nsec3_table (e : env) (nm : bytes) (ns : list nsec3) (tbl : list (N * bytes * bytes))
    : traced (list (N * bytes * bytes)) :=
  match ns with
  | [] => ([], tbl)
  | n :: t =>
      if 2500 <? n3_iters n then t_nsec3_table e nm t tbl
      else if negb (n3_algo n =? 1) then t_nsec3_table e nm t tbl
      else if existsb (n3_params_eqb n) tbl then t_nsec3_table e nm t tbl
      else let '(evs, h) := t_nsec3_hash e nm (n3_salt n) (n3_iters n) in
           let tbl' := tbl ++ [(n3_iters n, n3_salt n, h)] in
           if 2 <=? len tbl' then (evs, tbl')
           else let '(evs', r) := t_nsec3_table e nm t tbl' in (evs ++ evs', r)
  end.
(** validation.rs:446-525, as [discharge]. *)
Definition t_discharge (e : env) (res : list RR) (nd : need) (needs : list need) : traced (option (list need)) :=
  let '(nm, zone, ty) := nd in
  match find (nsec_proves nm ty) (nsec_search res zone) with
  | Some n => ([E_Search nd], Some (retain_needs nm (nsec_matches n nm) (ns_types n) needs))
  | None =>
      let ns := nsec3_search res zone in
      let '(evs, tbl) := t_nsec3_table e nm ns [] in
      (E_Search nd :: evs,
       match nsec3_find tbl ty ns with
       | Some (n, m) => Some (retain_needs nm m (n3_types n) needs)
       | None => None
       end)
  end.
(** validation.rs:446, as [proof_loop]. *)
Fixpoint t_proof_loop (e : env) (res : list RR) (fuel : nat) (needs : list need) : traced (outcome verr unit) :=
  match needs with
  | [] => ([], Ok tt)
  | nd :: t =>
      match fuel with
      | O => ([], Loop)
      | S f => match t_discharge e res nd t with
               | (evs, Some t') => let '(evs', r) := t_proof_loop e res f t' in (evs ++ evs', r)
               | (evs, None) => (evs, Err Invalid)
               end
      end
  end.
(** validation.rs:441-532, as [finish_verify]. *)
Definition t_finish_verify (e : env) (st : vstate) : traced (outcome verr verified) :=
  if is_nil (v_res st) then ([], Err Invalid)
  else if v_expiry st <=? v_inception st then ([], Err Invalid)
  else
    let sorted := e_sort_needs e (v_needs st) in
    let '(evs, o) := t_proof_loop e (v_res st) (List.length sorted) (rev sorted) in
    (evs, _ <- o ;;
          Ok {| vr_rrs := filter (fun r => negb (rr_ty r =? T_NSEC) && negb (rr_ty r =? T_NSEC3)) (v_res st);
                vr_valid_from := v_inception st; vr_expires := v_expiry st; vr_max_cache_ttl := v_ttl st |}).
(** validation.rs:350-533, as [verify_rr_stream]. *)
Definition t_verify_rr_stream (e : env) (dbg : bool) (fuel : nat) (inp : list RR) : traced (outcome verr verified) :=
  match t_zone_loop e dbg inp fuel vinit with
  | (evs, Ok st) => let '(evs', r) := t_finish_verify e st in (evs ++ evs', r)
  | (evs, Err x) => (evs, Err x)
  | (evs, Panic) => (evs, Panic)
  | (evs, Loop) => (evs, Loop)
  end.
