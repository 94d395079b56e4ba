(** The repository's own unit tests, run on the model: src/validation.rs:328-338 and 984-1235,
    src/base32.rs:114-130. These are tests of how well the model matches the code, not proofs of
    anything. SHA-1 and SHA-256 are the real functions; [e_sig] accepts exactly the signatures which
    tests/vectors.py checked, each only with its key and over the octets that script worked out from
    RFC 4034 — so the model must come up with exactly those octets. Where a test shuffles the
    records, the model gets them in the order they were written and backwards. *)
From Verif Require Import Base NameM WireM RRM SerM Base32M ValM ShaW RepoVecW.
From Coq Require Import String.
Local Open Scope N_scope.

Definition sigalg_eqb (a b : sigalg) : bool :=
  match a, b with
  | RSA_SHA256, RSA_SHA256 | RSA_SHA512, RSA_SHA512 | ECDSA_P256, ECDSA_P256 | ECDSA_P384, ECDSA_P384
  | ED25519, ED25519 => true
  | _, _ => false
  end.
Definition pubkey_eqb (a b : pubkey) : bool :=
  match a, b with
  | PK_RSA n x, PK_RSA m y => bytes_eqb n m && bytes_eqb x y
  | PK_raw k, PK_raw l => bytes_eqb k l
  | _, _ => false
  end.
Definition repo_env : env :=
  {| e_sha1 := sha1; e_sha256 := sha256;
     e_sig := fun alg pk msg sig =>
       existsb (fun x => match x with (a, k, m, s) => bytes_eqb s sig && bytes_eqb m msg && sigalg_eqb a alg && pubkey_eqb k pk end) good_signatures;
     e_sort_needs := sort_by nsec_ord_extra |}.

(** [write_rr] each record, [parse_rr_stream], and both orders of what comes out. *)
Definition through_wire (rs : list RR) : outcome unit (list RR) := parse_rr_stream false (flat_map (fun r => write_rr r 1) rs).
Definition both_orders (rs : list RR) (what : list RR -> bool) : bool :=
  match through_wire rs with Ok l => what l && what (rev l) | _ => false end.
Definition verify (rs : list RR) : outcome verr verified := verify_rr_stream repo_env false 100 rs.
Definition same (a b : list RR) : bool := forallb (fun p => rr_eqb (fst p) (snd p)) (combine a b) && (len a =? len b).
Definition is_txt (n d : string) (r : RR) : bool :=
  match r with RR_Txt t => bytes_eqb (tx_name t) (bs n) && bytes_eqb (tx_data t) (bs d) | _ => false end.
Definition is_cname (n c : string) (r : RR) : bool :=
  match r with RR_CName t => bytes_eqb (cn_name t) (bs n) && bytes_eqb (cn_canonical t) (bs c) | _ => false end.
Definition are (ps : list (RR -> bool)) (rs : list RR) : bool := forallb (fun x => fst x (snd x)) (combine ps rs) && (len ps =? len rs).
Definition resolves (v : verified) (n : string) (ps : list (RR -> bool)) : bool :=
  match resolve_name (vr_rrs v) 100 (bs n) with Ok l => are ps l | _ => false end.
Definition keys_of (rs : list RR) : list dnskey := flat_map (fun r => match r with RR_DnsKey k => [k] | _ => [] end) rs.
Definition sigs_of (rs : list RR) : list rrsig := flat_map (fun r => match r with RR_RRSig k => [k] | _ => [] end) rs.
Definition signed_by (zone set : list RR) : bool :=
  match set with
  | r :: RR_RRSig s :: _ => match verify_rrsig repo_env false s (keys_of zone) [r] with Ok _ => true | _ => false end
  | _ => false
  end.

(** validation.rs:330-338 *)
Definition rfc4034_names : list bytes :=
  [bs "example."; bs "a.example."; bs "yljkjljk.a.example."; bs "Z.a.example."; bs "zABC.a.EXAMPLE.";
   bs "z.example."; 0 :: bs "01.z.example."; bs "*.z.example."; 127 :: bs ".z.example."].
Definition rfc4034_sort_test : bool := is_nil (filter (fun p => negb (bytes_eqb (fst p) (snd p))) (combine (sort_by nsec_ord (rev rfc4034_names)) rfc4034_names)).
Check (@eq_refl bool true <: rfc4034_sort_test = true).

(** validation.rs:984-990, 1014-1028, 1072-1087 *)
Definition check_records : bool :=
  forallb (fun p => signed_by (fst p) (snd p))
    [(r_mattcorallo_dnskey, r_mattcorallo_txt_record); (r_bitcoin_ninja_dnskey, r_bitcoin_ninja_txt_record);
     (r_bitcoin_ninja_dnskey, r_bitcoin_ninja_cname_record);
     (r_bitcoin_ninja_dnskey, firstn 2 (r_bitcoin_ninja_wildcard_record "name"));
     (r_bitcoin_ninja_dnskey, firstn 2 (r_bitcoin_ninja_wildcard_record "anoter_name"));
     (r_bitcoin_ninja_dnskey, firstn 2 (r_bitcoin_ninja_wildcard_record "multiple.names"))].
Check (@eq_refl bool true <: check_records = true).

Definition mc_txt (r : RR) : bool :=
  match r, r_mattcorallo_txt_record with RR_Txt t, RR_Txt u :: _ => rr_eqb (RR_Txt t) (RR_Txt u) && bytes_eqb (tx_name t) (bs "matt.user._bitcoin-payment.mattcorallo.com.") | _, _ => false end.
(** validation.rs:992-1012 *)
Definition check_single_txt_proof : bool :=
  both_orders (r_root_dnskey ++ r_com_dnskey ++ r_mattcorallo_dnskey ++ r_mattcorallo_txt_record)
    (fun l => match verify l with
              | Ok v => are [mc_txt] (vr_rrs v) && (vr_valid_from v =? 1709047250) && (vr_expires v =? 1709359258)
                        && (vr_max_cache_ttl v =? 3600)
              | _ => false
              end).
Check (@eq_refl bool true <: check_single_txt_proof = true).
(** validation.rs:1030-1070 *)
Definition check_multi_zone_proof : bool :=
  both_orders (r_root_dnskey ++ r_com_dnskey ++ r_ninja_dnskey ++ r_mattcorallo_dnskey ++ r_mattcorallo_txt_record
               ++ r_bitcoin_ninja_dnskey ++ r_bitcoin_ninja_txt_record ++ r_bitcoin_ninja_cname_record)
    (fun l => match verify l with
              | Ok v => are [mc_txt; is_txt "txt_test.dnssec_proof_tests.bitcoin.ninja." "dnssec_prover_test";
                             is_cname "cname_test.dnssec_proof_tests.bitcoin.ninja." "txt_test.dnssec_proof_tests.bitcoin.ninja."]
                            (sort_by rr_cmp (vr_rrs v))
                        && resolves v "cname_test.dnssec_proof_tests.bitcoin.ninja."
                             [is_txt "txt_test.dnssec_proof_tests.bitcoin.ninja." "dnssec_prover_test"]
              | _ => false
              end).
Check (@eq_refl bool true <: check_multi_zone_proof = true).
(** validation.rs:1089-1121 *)
Definition check_wildcard_proof : bool :=
  both_orders (r_root_dnskey ++ r_ninja_dnskey ++ r_bitcoin_ninja_dnskey ++ r_bitcoin_ninja_cname_wildcard_record
               ++ r_bitcoin_ninja_wildcard_record "asdf")
    (fun l => match verify l with
              | Ok v => are [is_txt "asdf.wildcard_test.dnssec_proof_tests.bitcoin.ninja." "wildcard_test";
                             is_cname "asdf.cname_wildcard_test.dnssec_proof_tests.bitcoin.ninja." "cname.wildcard_test.dnssec_proof_tests.bitcoin.ninja."]
                            (sort_by rr_cmp (vr_rrs v))
                        && resolves v "asdf.wildcard_test.dnssec_proof_tests.bitcoin.ninja."
                             [is_txt "asdf.wildcard_test.dnssec_proof_tests.bitcoin.ninja." "wildcard_test"]
              | _ => false
              end).
Check (@eq_refl bool true <: check_wildcard_proof = true).
(** validation.rs:1123-1143 *)
Definition nsec_zone : list RR := r_root_dnskey ++ r_ninja_dnskey ++ r_bitcoin_ninja_dnskey ++ r_bitcoin_ninja_nsec_dnskey.
Definition check_simple_nsec_zone_proof : bool :=
  both_orders (nsec_zone ++ r_bitcoin_ninja_nsec_record)
    (fun l => match verify l with
              | Ok v => resolves v "a.nsec_tests.dnssec_proof_tests.bitcoin.ninja."
                          [is_txt "a.nsec_tests.dnssec_proof_tests.bitcoin.ninja." "txt_a"]
              | _ => false
              end).
Check (@eq_refl bool true <: check_simple_nsec_zone_proof = true).
(** validation.rs:1145-1196 *)
Definition check_proof (pfx : string) (post : bool) : bool :=
  both_orders (nsec_zone ++ (if post then r_bitcoin_ninja_nsec_post_override_wildcard_record pfx else r_bitcoin_ninja_nsec_wildcard_record pfx))
    (fun l => match verify l with
              | Ok v => let n := (pfx ++ ".wildcard_test.nsec_tests.dnssec_proof_tests.bitcoin.ninja.")%string in resolves v n [is_txt n "wildcard_test"]
              | _ => false
              end).
Definition check_proof_err (pfx : string) (post : bool) : bool :=
  both_orders (nsec_zone ++ (if post then r_bitcoin_ninja_nsec_post_override_wildcard_record pfx else r_bitcoin_ninja_nsec_wildcard_record pfx))
    (fun l => match verify l with Err _ => true | _ => false end).
Definition check_nsec_wildcard_proof : bool :=
  forallb (fun p => check_proof p false) ["a"; "a.b"; "o"; "a.o"]%string
  && forallb (fun p => check_proof_err p false) ["override"; "b.override"; "z"; "a.z"]%string
  && forallb (fun p => check_proof_err p true) ["a"; "a.b"; "o"; "a.o"; "override"; "b.override"; "z"; "a.z"]%string.
Check (@eq_refl bool true <: check_nsec_wildcard_proof = true).
(** validation.rs:1198-1217 *)
Definition sort_txts : list RR := filter (fun r => rr_ty r =? T_TXT) r_bitcoin_ninja_txt_sort_edge_cases_records.
Definition check_txt_sort_order : bool :=
  (len sort_txts =? 8) &&
  both_orders (r_root_dnskey ++ r_ninja_dnskey ++ r_bitcoin_ninja_dnskey ++ r_bitcoin_ninja_txt_sort_edge_cases_records)
    (fun l => match verify l with
              | Ok v => same (sort_by rr_cmp (vr_rrs v)) (sort_by rr_cmp sort_txts)
              | _ => false
              end).
Check (@eq_refl bool true <: check_txt_sort_order = true).

(** validation.rs:1219-1235, with validation.rs:28-32: the chain of RFC 9102 ends at an anchor which
    only test builds have. The model is of other builds, so the anchor's link is tried on its own, the
    rest of the chain signature by signature, and the whole is rejected. *)
Definition rfc9102_hint : ds :=
  {| ds_name := bs "."; ds_key_tag := 47005; ds_alg := 13; ds_digest_type := 2;
     ds_digest := [46;182;233;242;72;1;38;105;21;148;214;73;165;166;19;222;48;82;227;120;97;99;70;65;187;86;135;70;242;255;196;212] |}.
Definition rfc9102_rrs : list RR := match parse_rr_stream false rfc9102_chain with Ok l => l | _ => [] end.
Definition at_name (n : name) (rs : list RR) : list RR := filter (fun r => bytes_eqb (rr_name r) n) rs.
Definition is_ok {E A} (o : outcome E A) : bool := match o with Ok _ => true | _ => false end.
Definition is_tlsa (r : RR) : bool :=
  match r with
  | RR_TLSA t => (tl_usage t =? 3) && (tl_selector t =? 1) && (tl_data_ty t =? 1)
      && bytes_eqb (tl_data t) [139;209;218;149;39;47;127;164;255;178;65;55;252;14;208;58;174;103;229;196;216;179;197;7;52;225;5;10;121;32;185;34]
  | _ => false
  end.
Definition rfc9102_parse_test : bool :=
  bytes_eqb (map rr_ty rfc9102_rrs) [52; 46; 48; 46; 43; 46; 48; 48; 48; 46; 46; 43; 43; 46; 48; 48; 48; 46]
  && are [is_tlsa] (filter (fun r => rr_ty r =? 52) rfc9102_rrs)
  && is_ok (verify_dnskeys repo_env false (sigs_of (at_name root_name rfc9102_rrs)) [rfc9102_hint] (keys_of (at_name root_name rfc9102_rrs)))
  && forallb (fun s => is_ok (verify_rrsig repo_env false s (keys_of (at_name (rs_key_name s) rfc9102_rrs))
       (filter (fun r => rr_ty r =? rs_ty s) (at_name (rs_name s) rfc9102_rrs)))) (sigs_of rfc9102_rrs)
  && negb (is_ok (verify rfc9102_rrs)).
Check (@eq_refl bool true <: rfc9102_parse_test = true).

(** base32.rs:114-130 *)
Definition b32_test_bytes : bytes := flat_map (fun k => map (fun i => as_u8 (N.of_nat i + k)) (seq 0 256)) [0; 1; 2; 3; 4].
Definition test_encode_decode : bool :=
  match b32_decode (b32_encode b32_test_bytes) with Some b => bytes_eqb b b32_test_bytes | None => false end.
Check (@eq_refl bool true <: test_encode_decode = true).
