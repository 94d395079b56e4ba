(** Model of the JSON encoders: src/rr.rs (line numbers below) and wasmpack/src/lib.rs:76-97. *)
From Verif Require Import Base NameM WireM RRM SerM ValM.
From Coq Require Import String.
Local Open Scope N_scope.

(** [Display] of an unsigned integer (std).
    src/rr.rs:341 and all other [{}] of numbers. *)
Fixpoint dec_aux (fuel : nat) (n : N) (acc : bytes) : bytes :=
  match fuel with
  | O => acc
  | S f => let acc' := (48 + n mod 10) :: acc in
           if n / 10 =? 0 then acc' else dec_aux f (n / 10) acc'
  end.
(** src/rr.rs:341 and all other [{}] of numbers. *)
Definition dec (n : N) : bytes := dec_aux (S (N.to_nat (N.log2 n))) n [].
(** [{:02X}] of a byte (std). *)
Definition hex_digit (n : N) : N := if n <? 10 then 48 + n else 55 + n.
(** src/rr.rs:346, 451, 522, 597: [{:02X}] of an octet. *)
Definition hex2 (b : N) : bytes := [hex_digit (b / 16); hex_digit (b mod 16)].
(** src/rr.rs:345-348, 450-453, 521-524, 596-599: the loops writing hexadecimal. *)
Definition hex (l : bytes) : bytes := flat_map hex2 l.
(** [{:?}] of a byte slice or array (std): "[1, 2, 3]".
    src/rr.rs:285, 752, 798, 826. *)
Fixpoint sep_list (sep : bytes) (l : list bytes) : bytes :=
  match l with
  | [] => []
  | [x] => x
  | x :: t => x ++ sep ++ sep_list sep t
  end.
(** src/rr.rs:285, 752, 798, 826: [{:?}]. *)
Definition debug_bytes (l : bytes) : bytes := bs "[" ++ sep_list (bs ", ") (map dec l) ++ bs "]".

(** A double quote.
    src/rr.rs:281-285 and all other [json] functions. *)
Definition q1 : bytes := [dquote].
(** src/rr.rs:281-285 and all other [json] functions: a text within quotes. *)
Definition quoted (s : bytes) : bytes := q1 ++ s ++ q1.
(** A key and its colon: ["k":].
    src/rr.rs:281-285 and all other [json] functions. *)
Definition key (s : string) : bytes := quoted (bs s) ++ bs ":".
(** The common start of every record: [{"type":"t","name":"n",].
    src/rr.rs:285, 340, 380, 411, 445, 516, 591, 694, 752, 798, 826, 857. *)
Definition head (ty : string) (nm : name) : bytes :=
  bs "{" ++ key "type" ++ quoted (bs ty) ++ bs "," ++ key "name" ++ quoted nm ++ bs ",".

(** rr.rs:281: no character of the (UTF-8 valid) string is a control character, a double quote or a
    backslash; the control characters (Unicode Cc) are U+0000-1F, U+007F and U+0080-9F (encoded C2 80 - C2 9F). *)
Fixpoint json_plain (l : bytes) : bool :=
  match l with
  | [] => true
  | c :: t =>
      negb ((c <? 32) || (c =? 127) || (c =? dquote) || (c =? 92)
            || ((c =? 194) && match t with d :: _ => (128 <=? d) && (d <=? 159) | [] => false end))
      && json_plain t
  end.

(** rr.rs:279-286 *)
Definition txt_json (r : txt) : bytes :=
  head "txt" (tx_name r) ++ key "contents"
  ++ (if utf8_ok (tx_data r) && json_plain (tx_data r) then quoted (tx_data r) else debug_bytes (tx_data r))
  ++ bs "}".
(** rr.rs:339-351 *)
Definition tlsa_json (r : tlsa) : bytes :=
  head "tlsa" (tl_name r) ++ key "usage" ++ dec (tl_usage r) ++ bs "," ++ key "selector" ++ dec (tl_selector r)
  ++ bs "," ++ key "data_ty" ++ dec (tl_data_ty r) ++ bs "," ++ key "data" ++ quoted (hex (tl_data r)) ++ bs "}".
(** rr.rs:379-382 *)
Definition cname_json (r : cname) : bytes :=
  head "cname" (cn_name r) ++ key "canonical_name" ++ quoted (cn_canonical r) ++ bs "}".
(** rr.rs:410-413 *)
Definition dname_json (r : dname) : bytes :=
  head "dname" (dn_name r) ++ key "delegation_name" ++ quoted (dn_delegation r) ++ bs "}".
(** rr.rs:444-456 *)
Definition dnskey_json (r : dnskey) : bytes :=
  head "dnskey" (dk_name r) ++ key "flags" ++ dec (dk_flags r) ++ bs "," ++ key "protocol" ++ dec (dk_protocol r)
  ++ bs "," ++ key "alg" ++ dec (dk_alg r) ++ bs "," ++ key "pubkey" ++ quoted (hex (dk_pubkey r)) ++ bs "}".
(** rr.rs:515-527 *)
Definition ds_json (r : ds) : bytes :=
  head "ds" (ds_name r) ++ key "key_tag" ++ dec (ds_key_tag r) ++ bs "," ++ key "alg" ++ dec (ds_alg r)
  ++ bs "," ++ key "digest_type" ++ dec (ds_digest_type r) ++ bs "," ++ key "digest" ++ quoted (hex (ds_digest r))
  ++ bs "}".
(** rr.rs:590-602: the type is given as "ds" and there is no colon after "expiration" (line 593). *)
Definition rrsig_json (r : rrsig) : bytes :=
  head "ds" (rs_name r) ++ key "signed_record_type" ++ dec (rs_ty r) ++ bs "," ++ key "alg" ++ dec (rs_alg r)
  ++ bs "," ++ key "signed_labels" ++ dec (rs_labels r) ++ bs "," ++ key "orig_ttl" ++ dec (rs_orig_ttl r)
  ++ bs "," ++ quoted (bs "expiration") ++ dec (rs_expiration r) ++ bs "," ++ key "inception" ++ dec (rs_inception r)
  ++ bs "," ++ key "key_tag" ++ dec (rs_key_tag r) ++ bs "," ++ key "key_name" ++ quoted (rs_key_name r)
  ++ bs "," ++ key "signature" ++ quoted (hex (rs_signature r)) ++ bs "}".

(** rr.rs:176-192 [RR::ty_to_rr_name]. *)
Definition ty_to_rr_name (ty : N) : option string :=
  if ty =? T_A then Some "A"%string else if ty =? T_AAAA then Some "AAAA"%string
  else if ty =? T_NS then Some "NS"%string else if ty =? T_TXT then Some "TXT"%string
  else if ty =? T_CNAME then Some "CNAME"%string else if ty =? T_DNAME then Some "DNAME"%string
  else if ty =? T_TLSA then Some "TLSA"%string else if ty =? T_DNSKEY then Some "DNSKEY"%string
  else if ty =? T_DS then Some "DS"%string else if ty =? T_RRSIG then Some "RRSIG"%string
  else if ty =? T_NSEC then Some "NSEC"%string else if ty =? T_NSEC3 then Some "NSEC3"%string
  else None.
(** rr.rs:666-669 *)
Definition type_json (ty : N) : bytes :=
  match ty_to_rr_name ty with Some s => quoted (bs s) | None => dec ty end.
(** rr.rs:657-671: the types in the order they are written. *)
Definition byte_types (idx : N) (mask : N) : list N :=
  flat_map (fun b => if negb (N.land mask (N.shiftl 1 b) =? 0) then [N.lor (N.shiftl idx 3) (7 - b)] else [])
    [0; 1; 2; 3; 4; 5; 6; 7].
(** src/rr.rs:654-674: the types [write_json] finds in the mask, in order. *)
Fixpoint mask_types (idx : N) (mask : bytes) : list N :=
  match mask with
  | [] => []
  | m :: t => (if m =? 0 then [] else byte_types idx m) ++ mask_types (idx + 1) t
  end.
(** rr.rs:654-674 [NSecTypeMask::write_json]. *)
Definition mask_json (mask : bytes) : bytes :=
  bs "[" ++ sep_list (bs ",") (map type_json (mask_types 0 mask)) ++ bs "]".
(** rr.rs:693-702 *)
Definition nsec_json (r : nsec) : bytes :=
  head "nsec" (ns_name r) ++ key "next_name" ++ quoted (ns_next r) ++ bs "," ++ key "types" ++ mask_json (ns_types r)
  ++ bs "}".
(** rr.rs:749-758 *)
Definition nsec3_json (r : nsec3) : bytes :=
  head "nsec3" (n3_name r) ++ key "hash_algo" ++ dec (n3_algo r) ++ bs "," ++ key "flags" ++ dec (n3_flags r)
  ++ bs "," ++ key "hash_iterations" ++ dec (n3_iters r) ++ bs "," ++ key "salt" ++ debug_bytes (n3_salt r)
  ++ bs "," ++ key "next_name_hash" ++ debug_bytes (n3_next_hash r) ++ bs "," ++ key "types" ++ mask_json (n3_types r)
  ++ bs "}".
(** rr.rs:797-799, 825-827, 856-858 *)
Definition a_json (r : arec) : bytes := head "a" (a_name r) ++ key "address" ++ debug_bytes (a_addr r) ++ bs "}".
(** src/rr.rs:825-827 [AAAA::json]. *)
Definition aaaa_json (r : aaaarec) : bytes := head "aaaa" (a6_name r) ++ key "address" ++ debug_bytes (a6_addr r) ++ bs "}".
(** src/rr.rs:856-858 [NS::json]. *)
Definition ns_json (r : nsrec) : bytes := head "ns" (nr_name r) ++ key "ns" ++ quoted (nr_server r) ++ bs "}".

(** rr.rs:128-143 [RR::json]. *)
Definition rr_json (r : RR) : bytes :=
  match r with
  | RR_A r => a_json r | RR_AAAA r => aaaa_json r | RR_NS r => ns_json r | RR_Txt r => txt_json r
  | RR_TLSA r => tlsa_json r | RR_CName r => cname_json r | RR_DName r => dname_json r
  | RR_DnsKey r => dnskey_json r | RR_DS r => ds_json r | RR_RRSig r => rrsig_json r
  | RR_NSec r => nsec_json r | RR_NSec3 r => nsec3_json r
  end.

(** wasmpack/src/lib.rs:86-96: the response for verified records. *)
Definition wkey (s : string) : bytes := quoted (bs s) ++ bs ": ".
(** wasmpack/src/lib.rs:86-97: the text of [do_verify_byte_stream]. *)
Definition verified_json (v : verified) : bytes :=
  bs "{" ++ wkey "valid_from" ++ dec (vr_valid_from v) ++ bs ", " ++ wkey "expires" ++ dec (vr_expires v)
  ++ bs ", " ++ wkey "max_cache_ttl" ++ dec (vr_max_cache_ttl v) ++ bs ", " ++ wkey "verified_rrs" ++ bs "["
  ++ sep_list (bs ", ") (map rr_json (vr_rrs v)) ++ bs "]}".
(** wasmpack/src/lib.rs:79: [{:?}] of a [ValidationError]. *)
Definition error_json (e : verr) : bytes :=
  bs "{" ++ key "error" ++ quoted (bs (match e with UnsupportedAlgorithm => "UnsupportedAlgorithm" | Invalid => "Invalid" end))
  ++ bs "}".
(** wasmpack/src/lib.rs:76-97 [verify_byte_stream]; the outcome is a string, a panic or divergence. *)
Definition verify_byte_stream (e : env) (dbg : bool) (fuel : nat) (stream : bytes) : outcome Empty_set bytes :=
  match parse_rr_stream dbg stream with
  | Ok rrs => match verify_rr_stream e dbg fuel rrs with
              | Ok v => Ok (verified_json v)
              | Err x => Ok (error_json x)
              | Panic => Panic
              | Loop => Loop
              end
  | Err _ => Ok (error_json Invalid)
  | Panic => Panic
  | Loop => Loop
  end.
