{
 "claims": [
  {
   "property": "C01",
   "status": "proved",
   "theorems": [
    "C01_name_accepts_exactly"
   ],
   "note": "Exact accept set (iff) and result."
  },
  {
   "property": "C02",
   "status": "proved",
   "theorems": [
    "C02_case_insensitive",
    "C02_reparse_identity"
   ],
   "note": ""
  },
  {
   "property": "C03",
   "status": "proved",
   "theorems": [
    "C03_labels_and_suffixes",
    "C03_root",
    "C03_suffix_is_name"
   ],
   "note": ""
  },
  {
   "property": "C04",
   "status": "proved",
   "theorems": [
    "C04_decode_exact",
    "C04_decode_total"
   ],
   "note": ""
  },
  {
   "property": "C05",
   "status": "proved",
   "theorems": [
    "C05_owner_pointer_rejected",
    "C05_rdata_pointer_rejected"
   ],
   "note": "also names inside RDATA"
  },
  {
   "property": "C06",
   "status": "partial",
   "theorems": [
    "C06_name_roundtrip",
    "C06_announced_length",
    "C06_scope",
    "C06_all_names_refuted"
   ],
   "note": "proved for every name without an empty inner label; refuted for the others, which Name::try_from accepts"
  },
  {
   "property": "C07",
   "status": "partial",
   "theorems": [
    "C07_record_roundtrip_partial",
    "C07_empty_txt_refuted",
    "C07_empty_label_refuted"
   ],
   "note": "proved for all records except empty TXT data and names with empty labels, for which it is refuted"
  },
  {
   "property": "C08",
   "status": "partial",
   "theorems": [
    "C08_stream_roundtrip_partial",
    "C08_truncation_detected_partial",
    "C08_empty_txt_refuted"
   ],
   "note": "as C07"
  },
  {
   "property": "C09",
   "status": "partial",
   "theorems": [
    "C09_parse_accepts_exactly_partial",
    "C09_strict_refuted"
   ],
   "note": "exact grammar proved; the strict RDLENGTH claim is refuted for release builds, which ignore bytes after the name in NS/CNAME/DNAME RDATA"
  },
  {
   "property": "C10",
   "status": "partial",
   "theorems": [
    "C10_always_terminates",
    "C10_panics_exactly_partial",
    "C10_never_panics_refuted"
   ],
   "note": "termination proved; the exact set of panicking inputs characterised; the claim itself is refuted (NSEC bitmap window 255 longer than 32 octets)"
  },
  {
   "property": "C100",
   "status": "proved",
   "theorems": [
    "C100_build",
    "C100_task",
    "C100_sent_reached",
    "C100_total_refuted"
   ],
   "note": "Names are taken as octet strings of at most 255 characters, so that a query has at most 283 octets with 2 for its length. Octets only: what the allocator, tokio and the kernel keep for a task or a socket is not modelled. C100_total_refuted is the last sentence of the statement; its witness leaves k connections with 4095 octets of a request each."
  },
  {
   "property": "C101",
   "status": "partial",
   "theorems": [
    "C101_records_only",
    "C101_permuted",
    "C101_again",
    "C101_answered_refuted"
   ],
   "note": "The first sentence is false (C101_answered_refuted): responses are counted and not matched to queries, so the answer to the first query, given three times, stands in for the keys and the DS of its signer, and the proof is finished without them. The rest is proved. C42 has what finish_proof does ensure, C64 and C99 that a resolver which answers as asked gives a proof with the answers."
  },
  {
   "property": "C102",
   "status": "proved",
   "theorems": [
    "C102_same",
    "C102_bound",
    "C102_reached",
    "C102_slow",
    "C102_linear_refuted",
    "C102_one_piece"
   ],
   "note": "Counted are the windows of the loop at http.rs:62-64, on a model shown to read as that of C48 (C102_same). C102_linear_refuted is the clause that the work is not linear (no factor up to 2047 suffices)."
  },
  {
   "property": "C103",
   "status": "proved",
   "theorems": [
    "C103_served",
    "C103_same",
    "C103_octets_refuted"
   ],
   "note": "The request is ASCII (C48), the answers have at most 65535 octets (no longer ones can be sent over TCP). Octets_refuted: the bodies need not be equal octet by octet; whether they verify alike is C99_verdict_partial."
  },
  {
   "property": "C104",
   "status": "partial",
   "theorems": [
    "C104_page_partial",
    "C104_page_refuted",
    "C104_server"
   ],
   "note": "Proved for answers of less than 65535 octets; an answer of exactly 65535 is ignored by the page (C58). The server's side is C103_served."
  },
  {
   "property": "C105",
   "status": "partial",
   "theorems": [
    "C105_shown_partial",
    "C105_shown_refuted",
    "C105_client_partial",
    "C105_client_refuted"
   ],
   "note": "Both directions proved for the release build, answers of less than 65535 octets (C104), DNSKEYs and RRSIGs over them of each zone in one answer and the conditions of C99; that the page shows the result also needs texts without backslashes (C51, where this is shown). Both refuted without the condition on DNSKEYs and their RRSIGs."
  },
  {
   "property": "C11",
   "status": "proved",
   "theorems": [
    "C11_mask_is_set",
    "C11_new_is_empty"
   ],
   "note": ""
  },
  {
   "property": "C12",
   "status": "proved",
   "theorems": [
    "C12_bitmap_roundtrip",
    "C12_announced_length",
    "C12_writes_canonical",
    "C12_reads_meaning"
   ],
   "note": ""
  },
  {
   "property": "C13",
   "status": "partial",
   "theorems": [
    "C13_rdata_preserved_partial",
    "C13_rechunked_txt_refuted"
   ],
   "note": "TXT strings not filled to 255 bytes are re-chunked (refuted); other canonical RDATA is preserved"
  },
  {
   "property": "C14",
   "status": "proved",
   "theorems": [
    "C14_key_tag_rfc4034",
    "C14_no_overflow",
    "C14_debug_exact"
   ],
   "note": "Keys of any length; with overflow checks a panic exactly if the sum and its carries do not fit into 32 bits, which needs more octets than a record has."
  },
  {
   "property": "C15",
   "status": "partial",
   "theorems": [
    "C15_split_exact_partial",
    "C15_nothing_lost",
    "C15_rfc3110_accepted",
    "C15_three_byte_key_refuted"
   ],
   "note": "exact for all keys of at least four bytes; the three-byte form (1-byte exponent, 1-byte modulus) is rejected"
  },
  {
   "property": "C16",
   "status": "proved",
   "theorems": [
    "C16_decode_exact",
    "C16_inverts_encode",
    "C16_unique_up_to_case"
   ],
   "note": ""
  },
  {
   "property": "C17",
   "status": "proved",
   "theorems": [
    "C17_nsec_order_is_canonical",
    "C17_nsec_order_total"
   ],
   "note": ""
  },
  {
   "property": "C18",
   "status": "proved",
   "theorems": [
    "C18_parsed_records_held",
    "C18_authenticated"
   ],
   "note": "Authentic is an inductive chain-of-trust predicate in ValSpec; e_sig/e_sha* arbitrary."
  },
  {
   "property": "C19",
   "status": "proved",
   "theorems": [
    "C19_signed_bytes",
    "C19_signed_bytes_canonical",
    "C19_signed_bytes_any_name",
    "C19_debug_same"
   ],
   "note": "SignedWire spells the RFC 4034 3.1.8.1 bytes independently of the serialiser; release and debug builds."
  },
  {
   "property": "C20",
   "status": "partial",
   "theorems": [
    "C20_input_records_partial",
    "C20_nonempty_refuted"
   ],
   "note": "Non-emptiness is false: a stream proving only NSEC records is Ok and empty."
  },
  {
   "property": "C21",
   "status": "proved",
   "theorems": [
    "C21_window"
   ],
   "note": ""
  },
  {
   "property": "C22",
   "status": "proved",
   "theorems": [
    "C22_complete"
   ],
   "note": ""
  },
  {
   "property": "C23",
   "status": "partial",
   "theorems": [
    "C23_name_suffix_partial",
    "C23_label_boundary_refuted"
   ],
   "note": "Owner is a string suffix extension of the zone; the label-boundary claim is false in the code (ends_with)."
  },
  {
   "property": "C24",
   "status": "partial",
   "theorems": [
    "C24_wildcard_denied_partial",
    "C24_strict_refuted",
    "C24_same_zone_refuted",
    "C24_wildcard_ds_refuted"
   ],
   "note": "Weak denial proved; strictness, same-zone and DS coverage are refuted with witnesses."
  },
  {
   "property": "C25",
   "status": "partial",
   "theorems": [
    "C25_fuel_irrelevant",
    "C25_terminates_partial",
    "C25_ends_partial",
    "C25_ends_exactly_partial",
    "C25_terminates_refuted",
    "C25_self_signed_ds_refuted"
   ],
   "note": "Refuted: the root DNSKEY RRset alone, or a zone delegating itself, loops forever. Proved: these are the only reasons (C25_ends_partial), an exact condition when all zones reached are in order, and a bound on the number of zones visited."
  },
  {
   "property": "C26",
   "status": "partial",
   "theorems": [
    "C26_release",
    "C26_debug_partial",
    "C26_debug_refuted"
   ],
   "note": "Release builds: proved. Debug builds: exact panic condition and a witness."
  },
  {
   "property": "C27",
   "status": "proved",
   "theorems": [
    "C27_keys_vouched",
    "C27_vouched_keys_exact",
    "C27_unknown_digests",
    "C27_no_delegation"
   ],
   "note": ""
  },
  {
   "property": "C28",
   "status": "partial",
   "theorems": [
    "C28_only_unsupported",
    "C28_never_ok",
    "C28_reported_partial",
    "C28_sha384_refuted",
    "C88_unsupported_partial",
    "C88_sha384_refuted"
   ],
   "note": "SHA-384-only DS RRsets are reported Invalid; with another, broken zone in the input the order of the records decides (C88)."
  },
  {
   "property": "C29",
   "status": "proved",
   "theorems": [
    "C29_one_query",
    "C29_run_queries"
   ],
   "note": ""
  },
  {
   "property": "C30",
   "status": "proved",
   "theorems": [
    "C30_hash_queries"
   ],
   "note": ""
  },
  {
   "property": "C31",
   "status": "partial",
   "theorems": [
    "C31_rrset_order_partial",
    "C31_verdict_order_partial",
    "C31_data_order_partial",
    "C31_accepted_order_partial",
    "C31_any_order_partial",
    "C31_verdict_order_refuted",
    "C31_signer_refuted",
    "C31_params_refuted"
   ],
   "note": "Refuted in general: the order of the RRSIGs over a DNSKEY RRset decides. Proved: order within an RRset never matters to its signature; the verdict is the same if RRSIGs and DNSKEYs keep their order, wildcard answers with the same next closer name have one signer and at most two sets of NSEC3 parameters occur (neither of these two can be left out); what is accepted, and the result, does not depend on the order at all when keys of a zone differ in tag or algorithm and their RRset is signed once (limits of C60 on NSEC3 parameters and zones signing wildcards)."
  },
  {
   "property": "C32",
   "status": "partial",
   "theorems": [
    "C32_canonical_order_partial",
    "C32_canonical_order_refuted",
    "C32_types_partial",
    "C32_names_partial",
    "C32_shape_partial"
   ],
   "note": "Canonical for A, AAAA, TXT, TLSA, DNSKEY, DS, and for exactly these of the supported types (C32_types_partial: NS, CNAME, DNAME, RRSIG, NSEC, NSEC3 have RRsets sorted otherwise). RRsets of NS, CNAME and DNAME records are put in canonical order exactly if the names are in one order as texts and as octets (C32_names_partial), which names whose labels are of the same lengths are (C32_shape_partial)."
  },
  {
   "property": "C33",
   "status": "proved",
   "theorems": [
    "C33_resolves",
    "C33_no_panic"
   ],
   "note": "Aliases are followed by the code's textual DNAME substitution; C35 compares it with RFC 6672."
  },
  {
   "property": "C34",
   "status": "partial",
   "theorems": [
    "C34_terminates_partial",
    "C34_terminates_refuted"
   ],
   "note": "Terminates iff no alias cycle is reachable; signed CNAME loops never return."
  },
  {
   "property": "C35",
   "status": "partial",
   "theorems": [
    "C35_dname_partial",
    "C35_own_owner_refuted",
    "C35_sibling_refuted"
   ],
   "note": "Agrees with RFC 6672 on label-aligned, non-root DNAMEs; refuted in general."
  },
  {
   "property": "C36",
   "status": "partial",
   "theorems": [
    "C36_buffer_contents",
    "C36_buffer_fill",
    "C36_buffer_eq_partial",
    "C36_buffer_eq_sound",
    "C36_buffer_eq_refuted"
   ],
   "note": "Contents are exact for every sequence of appends up to 65535 bytes. Equality is equality of contents up to 2048 bytes; beyond, equal contents can compare unequal (derived PartialEq compares the unused stack part): refuted with a witness."
  },
  {
   "property": "C37",
   "status": "partial",
   "theorems": [
    "C37_buffer_panic_partial",
    "C37_buffer_panic_refuted"
   ],
   "note": "The documented absence of a panic is refuted; the panic is characterised exactly (total above 65535 bytes)."
  },
  {
   "property": "C38",
   "status": "proved",
   "theorems": [
    "C38_query",
    "C38_query_decodes",
    "C38_query_unique"
   ],
   "note": "For every valid name and type; decoding for names without empty labels; at most 283 bytes."
  },
  {
   "property": "C39",
   "status": "partial",
   "theorems": [
    "C39_accepted_partial",
    "C39_contributes",
    "C39_items_unique",
    "C39_rcode_refuted"
   ],
   "note": "Exact characterisation of accepted responses and of what they contribute. RCODE 8 is accepted as well as 0 (three-bit mask): the claim with RCODE 0 is refuted with a witness."
  },
  {
   "property": "C40",
   "status": "proved",
   "theorems": [
    "C40_queries",
    "C40_responses",
    "C40_terminates"
   ],
   "note": ""
  },
  {
   "property": "C41",
   "status": "partial",
   "theorems": [
    "C41_queries_partial",
    "C41_signers_queried_partial",
    "C41_signers_queried_refuted"
   ],
   "note": "Exact for RRSIGs of accepted responses, in any run; a response rejected part-way leaves RRSIGs in the proof whose signers are never queried (witness)."
  },
  {
   "property": "C42",
   "status": "proved",
   "theorems": [
    "C42_finish"
   ],
   "note": ""
  },
  {
   "property": "C43",
   "status": "partial",
   "theorems": [
    "C43_parses_back_partial",
    "C43_empty_label_refuted",
    "C43_oversized_refuted",
    "C43_empty_txt_refuted"
   ],
   "note": "Proved when every record has names without empty labels, RDATA which fits when names are written out, and is not an empty TXT; each of the three conditions is necessary (witnesses). C44_any_run_partial says it for runs with rejected responses."
  },
  {
   "property": "C44",
   "status": "partial",
   "theorems": [
    "C44_ttl_partial",
    "C44_any_run_partial",
    "C44_ttl_refuted"
   ],
   "note": "Exact for every run: the TTL is the minimum over the accepted responses, and the proof also holds what rejected ones left. So the TTL is that of the proof in runs without rejected responses; refuted in general."
  },
  {
   "property": "C45",
   "status": "partial",
   "theorems": [
    "C45_rejected_partial",
    "C45_rejected_header_partial",
    "C45_left_partial",
    "C45_left_unique_partial",
    "C45_same_behaviour_partial",
    "C45_rejected_refuted"
   ],
   "note": "Only the proof bytes can differ, by exactly the records before the first which does not parse; queries, results and TTL are unaffected; the proof bytes do differ in general (witness)."
  },
  {
   "property": "C46",
   "status": "proved",
   "theorems": [
    "C46_framing",
    "C46_framing_unique",
    "C46_framing_sound",
    "C46_truncated"
   ],
   "note": "For every segmentation of the stream."
  },
  {
   "property": "C47",
   "status": "partial",
   "theorems": [
    "C47_time_partial",
    "C47_order",
    "C47_congruent_refuted",
    "C47_epoch_refuted"
   ],
   "note": "Both halves of the full statement are false of the code (2^32-1 is added instead of 2^32; the cutoff ignores leap days and is 1996-12-25). Proved: the exact deviation, at most one second, and order preservation."
  },
  {
   "property": "C48",
   "status": "partial",
   "theorems": [
    "C48_serves_only",
    "C48_asks_one_thing",
    "C48_serves_partial",
    "C48_serves_refuted",
    "C48_rejects",
    "C48_other_path",
    "C48_no_proof",
    "C48_bad_request",
    "C48_no_line"
   ],
   "note": "Only-if and all rejections proved for every byte string and segmentation; the if direction needs the bytes read to be ASCII and is refuted without that (UTF-8 check of whatever followed the request line)."
  },
  {
   "property": "C49",
   "status": "partial",
   "theorems": [
    "C49_segmentation_partial",
    "C49_segmentation_any_partial",
    "C49_segmentation_refuted"
   ],
   "note": "Refuted in general by a UTF-8 character cut by a segment boundary; proved for ASCII, and in general up to the answer 400 Bad Request."
  },
  {
   "property": "C50",
   "status": "proved",
   "theorems": [
    "C50_framed",
    "C50_unambiguous",
    "C50_headers",
    "C50_numeral"
   ],
   "note": ""
  },
  {
   "property": "C51",
   "status": "partial",
   "theorems": [
    "C51_one_value",
    "C51_json_partial",
    "C51_json_refuted",
    "C51_exactly",
    "C51_rrsig_refuted",
    "C51_describes_one",
    "C51_injective",
    "C51_reads"
   ],
   "note": "The full statement is false (C51_json_refuted: a name with a backslash; C51_rrsig_refuted: RRSIG JSON is never well formed, a colon is missing). C51_exactly characterises exactly for which records it holds; the JSON determines the record."
  },
  {
   "property": "C52",
   "status": "partial",
   "theorems": [
    "C52_json_partial",
    "C52_json_refuted",
    "C52_reads"
   ],
   "note": "The full statement is false for verified names containing a backslash (C52_json_refuted). C52_json_partial gives the exact condition; errors are always valid JSON. Which error is reported is part of the statement."
  },
  {
   "property": "C53",
   "status": "proved",
   "theorems": [
    "C53_fifo",
    "C53_none",
    "C53_init"
   ],
   "note": "For every session; the queries are compared with those of the library builder on the same responses."
  },
  {
   "property": "C54",
   "status": "partial",
   "theorems": [
    "C54_end_to_end_partial",
    "C54_end_to_end_refuted"
   ],
   "note": "build_proof over any segmented stream; faithful under the conditions of C43, refuted without them."
  },
  {
   "property": "C55",
   "status": "partial",
   "theorems": [
    "C55_bound_partial",
    "C55_visits_refuted",
    "C55_exponential"
   ],
   "note": "The linear bound is false: a zone reached along several delegation paths is visited once per path. Proved instead: the tight bound 2^k for k delegated zones, and a family of inputs of size O(n^2) that needs exactly 2^n visits."
  },
  {
   "property": "C56",
   "status": "partial",
   "theorems": [
    "C56_repeated_rrsig_partial",
    "C56_repeated_record_refuted"
   ],
   "note": "Proved for repeated RRSIGs (and, by C59, for records nobody signed). Refuted for signed records: a repeated record is hashed twice and the signature fails."
  },
  {
   "property": "C57",
   "status": "partial",
   "theorems": [
    "C57_panics_partial",
    "C57_panics_refuted"
   ],
   "note": "Panics are characterised exactly; the claim is refuted by an NSEC record with an overlong type bitmap (also release builds)."
  },
  {
   "property": "C58",
   "status": "partial",
   "theorems": [
    "C58_proof_partial",
    "C58_proof_refuted"
   ],
   "note": "False for responses of exactly 65535 octets, which the wrapper silently drops (C58_proof_refuted); proved for all shorter ones."
  },
  {
   "property": "C59",
   "status": "proved",
   "theorems": [
    "C59_unsigned_ignored"
   ],
   "note": ""
  },
  {
   "property": "C60",
   "status": "partial",
   "theorems": [
    "C60_necessary",
    "C60_sufficient_partial",
    "C60_exact_partial",
    "C60_result",
    "C60_two_params_refuted",
    "C60_one_zone_refuted"
   ],
   "note": "The equivalence is proved for record lists with at most two sets of NSEC3 parameters below each zone that needs a denial, in which no two zones answer for one name from a wildcard (and without an RRSIG over no records whose labels field is 255, see C26). Both limits are needed: refuted without each. The necessary conditions and the exact result need neither."
  },
  {
   "property": "C61",
   "status": "partial",
   "theorems": [
    "C61_denial_partial",
    "C61_last_nsec_refuted",
    "C61_last_nsec3_refuted"
   ],
   "note": "Proved for denying records other than the last of the zone. Refuted for the last NSEC (next name = apex) and the last NSEC3 (next hash = first hash): such valid answers are turned down as Invalid."
  },
  {
   "property": "C62",
   "status": "partial",
   "theorems": [
    "C62_published_partial",
    "C62_proof_partial",
    "C62_boundary_refuted",
    "C62_exact_refuted"
   ],
   "note": "The full statement needs all zones whose name ends the record's name textually to be honest, not just the zones above it: C62_boundary_refuted gives a world where the zone a. forges ba. (the label boundary is not checked, C23). Also a wildcard answer may replace an existing RRset of the same name and type (C62_exact_refuted). The World of SecSpec.v (unforgeable signatures, collision-free delegations) is a hypothesis, instantiated in C62_example."
  },
  {
   "property": "C63",
   "status": "proved",
   "theorems": [
    "C63_parse",
    "C63_verify",
    "C63_respond",
    "C63_build",
    "C63_wasm"
   ],
   "note": "Debug-build behaviour as modelled: debug_assert!, arithmetic overflow checks."
  },
  {
   "property": "C64",
   "status": "partial",
   "theorems": [
    "C64_built",
    "C64_validates_partial",
    "C64_zones_refuted",
    "C64_key_order_refuted"
   ],
   "note": "The driver's half is C64_built. End to end it is proved for trees of at most five zones whose DNSKEY RRsets have the RRSIG by a delegated key first; six zones exceed the budget of ten requests (C64_zones_refuted), and a DNSKEY RRset correctly signed by two keys is rejected when the RRSIG by the non-delegated key comes first (C64_key_order_refuted). Denials by the last NSEC or NSEC3 of a zone are excluded, see C61. The resolver may add records without RRSIGs, such as the CNAMEs made up for DNAMEs."
  },
  {
   "property": "C65",
   "status": "partial",
   "theorems": [
    "C65_type",
    "C65_domain",
    "C65_run",
    "C65_fuel_irrelevant",
    "C65_url_decodes",
    "C65_url_unique",
    "C65_works_partial",
    "C65_works_refuted",
    "C65_json_partial",
    "C65_json_refuted"
   ],
   "note": "The run is characterised in full (C65_run). That it works is proved where C64 holds, for responses below 65535 octets (C58) and names without backslash; with a backslash the result is not JSON and the promise is rejected (C65_works_refuted). Error texts are not escaped: what it settles with need not be JSON (C65_json_refuted). JSON.parse/stringify and fetch are parameters."
  },
  {
   "property": "C66",
   "status": "partial",
   "theorems": [
    "C66_works_partial",
    "C66_zones_refuted",
    "C66_key_order_refuted"
   ],
   "note": "Proved under the conditions of C64 and for requests whose bytes read are ASCII; without them refuted (C66_zones_refuted, C66_key_order_refuted, C48_serves_refuted)."
  },
  {
   "property": "C67",
   "status": "partial",
   "theorems": [
    "C67_served",
    "C67_served_unique",
    "C67_isolated",
    "C67_progress_partial",
    "C67_progress_refuted",
    "C67_ends_refuted"
   ],
   "note": "Independence proved. Progress is refuted in general: an error from accept() panics main and drops every task (C67_progress_refuted), and there is no timeout, so a silent client is waited for forever (C67_ends_refuted)."
  },
  {
   "property": "C68",
   "status": "partial",
   "theorems": [
    "C68_response_partial",
    "C68_response_refuted",
    "C68_builder",
    "C68_builder_panics_partial",
    "C68_builder_ends",
    "C68_builder_refuted",
    "C68_limit",
    "C68_limit_query",
    "C68_fuzzing_agrees",
    "C68_fuzzing_same",
    "C68_fuzzing_refuted",
    "C68_more_signatures",
    "C68_validate_panics_partial",
    "C68_validate_panics_refuted",
    "C68_validate_ends_partial",
    "C68_validate_ends_refuted",
    "C68_capacity"
   ],
   "note": "The targets panic on exactly the inputs of C57 and C10 (and, debug builds, C26), and the validating one hangs on those of C25: refuted in general, characterised. That the fuzz build decides alike except for the shortcut is proved. The capacity Vec reports is std's; proved is that exactly the reserved number of bytes is written."
  },
  {
   "property": "C69",
   "status": "partial",
   "theorems": [
    "C69_origin_partial",
    "C69_exact_partial",
    "C69_plain_partial",
    "C69_nonterminal_refuted",
    "C69_delegation_refuted",
    "C69_own_refuted",
    "C69_next_refuted"
   ],
   "note": "Whatever is returned was published for its name or for a wildcard along with a published denial record, whose zone has nothing at the next closer name unless the record is that name's own. Existing records are returned if the wildcard is right above the name and the denial is neither the name's own nor another zone's; each of the three conditions is necessary (refutations with worlds of true NSEC chains: empty non-terminals, the parent's record of a delegation, the name's own record). That next names in NSEC records have no empty labels is necessary as well (C69_next_refuted)."
  },
  {
   "property": "C70",
   "status": "partial",
   "theorems": [
    "C70_answers_partial",
    "C70_dns_partial",
    "C70_sibling_refuted",
    "C70_owner_refuted"
   ],
   "note": "With DNAME records applied to texts the statement holds for all names, and only the honesty of zones along published aliases is needed. With RFC 6672 it holds if no name on the way is the owner of a published DNAME record or ends in the owner's text within a label; both exceptions are real (refutations in a world of honest zones only). Records from wildcards count as published (C69 says when they should not)."
  },
  {
   "property": "C71",
   "status": "partial",
   "theorems": [
    "C71_lookup_partial",
    "C71_owner_refuted",
    "C71_sibling_refuted",
    "C71_root_refuted",
    "C71_no_dname_partial"
   ],
   "note": "Proved under the conditions of C64 and when no name on the way is a DNAME's owner, or ends like one within a label, and no DNAME is for or to the root. Each of the three conditions is needed (a witness each): the owner is redirected like names below it and so no DNAME record is ever returned (C71_no_dname_partial), zd.a. is taken to be below d.a., and x.d.a. is redirected to \"x..\" by a DNAME to the root."
  },
  {
   "property": "C72",
   "status": "partial",
   "theorems": [
    "C72_published_partial",
    "C72_plain",
    "C72_published_refuted"
   ],
   "note": "The full statement fails because names are put into the JSON between quotes without escaping backslashes: a zone named \\u0061. is shown as a. by JSON.parse, so it can answer for a. (C72_published_refuted, a whole lookup of the domain a). Missing from the partial theorem: the hypothesis asks that those with a say about every spelling of the name are honest. Without backslashes the result shown is the validator's (C72_plain)."
  },
  {
   "property": "C73",
   "status": "partial",
   "theorems": [
    "C73_current_partial",
    "C73_current_refuted",
    "C73_second_refuted",
    "C73_exact"
   ],
   "note": "Proved for signatures with periods RFC 4034 can express (under 2^31 seconds), except the first second of a window which opens in 2106 or later; both conditions are needed (two refutations: a signature over more than 68 years is reported valid at times RFC 4034 excludes, and the off-by-one of resolve_time). Until 2106 the window is exactly the intersection of the periods of the signatures relied on."
  },
  {
   "property": "C74",
   "status": "partial",
   "theorems": [
    "C74_wished_partial",
    "C74_published",
    "C74_supported",
    "C74_none_refuted",
    "C74_dishonest_refuted"
   ],
   "note": "Proved: the error comes from a zone, not the root, reached by signed DS RRsets, whose DS RRset has only unknown digest types or one entry for a key of an unimplemented algorithm; published as such if the zones above it are honest; hence never with honest zones which use implemented algorithms only. Missing, and refuted: that no entry is supported (the sender can leave out the signatures by the supported key, and needs no signature by the other), and that one can do without the honesty of all zones."
  },
  {
   "property": "C75",
   "status": "partial",
   "theorems": [
    "C75_merge_partial",
    "C75_concat_refuted",
    "C75_versions_refuted",
    "C75_stray_refuted",
    "C75_params_refuted"
   ],
   "note": "Refuted for plain concatenation, for RRsets changed in between, for stray signatures and for more than two sets of NSEC3 parameters. Proved for lists merged without repetition outside these cases, for keys told apart by their tags, and without the three other exceptions of C60 and C31. Of the window only bounds are given where a DNSKEY RRset has several RRSIGs, since the code uses the first valid one."
  },
  {
   "property": "C76",
   "status": "partial",
   "theorems": [
    "C76_partial_total",
    "C76_ord_total",
    "C76_agree_refuted",
    "C76_agree_partial",
    "C76_ord_sort_refuted",
    "C76_ord_sort_partial"
   ],
   "note": "Refuted for TXT records, whose Ord is derived while PartialOrd is written by hand; the pairs on which the two differ are characterised exactly. Verification sorts with sort_unstable, whose documentation does not say which of the two it uses; the standard library uses PartialOrd, as modelled."
  },
  {
   "property": "C77",
   "status": "partial",
   "theorems": [
    "C77_chain_order",
    "C77_root_last_refuted"
   ],
   "note": "The order of the chain is proved in full for responses which answer the builder's queries in any order, each once, all accepted; that the root's keys come last is refuted. A run with rejected responses is outside, see C41."
  },
  {
   "property": "C78",
   "status": "proved",
   "theorems": [
    "C78_buffer",
    "C78_built",
    "C78_tight"
   ],
   "note": "Compressed names make records grow when they are copied into the proof; the factor 261/7 is attained by a family of responses. Memory outside the proof buffer is not modelled."
  },
  {
   "property": "C79",
   "status": "proved",
   "theorems": [
    "C79_leaves",
    "C79_any",
    "C79_nothing_new",
    "C79_denial_refuted",
    "C79_delegation_refuted"
   ],
   "note": "Via the exact description of the verdict (C60). The two refutations show that denials and the root's delegations cannot go in general: without the former the verdict is Invalid, without the latter the verifier does not return (C25)."
  },
  {
   "property": "C80",
   "status": "proved",
   "theorems": [
    "C80_keys",
    "C80_refines",
    "C80_iterated",
    "C80_pieces"
   ],
   "note": "HashM.v models hash.rs and its uses with the engines of bitcoin_hashes as a parameter; the rest of the model uses hashes of whole inputs, which C80_refines and C80_iterated justify. The example's engines are SHA-1 and SHA-256 of FIPS 180-4 keeping one block."
  },
  {
   "property": "C81",
   "status": "partial",
   "theorems": [
    "C81_built_partial",
    "C81_served_partial",
    "C81_lifetime_refuted",
    "C81_expiry_refuted"
   ],
   "note": "Holds if the resolver gives RRSIGs TTLs as RFC 4035 section 5.3.3 asks (at most the Original TTL, not past the expiration) and every record can be written back (C10); for the expiration until 2106. Refuted without: the builder takes the least TTL of the responses and looks neither at Original TTL nor at expiration."
  },
  {
   "property": "C82",
   "status": "partial",
   "theorems": [
    "C82_ties_partial",
    "C82_ties_refuted"
   ],
   "note": "Refuted: when two zones have signed wildcard answers with the same next closer name, retain drops the need of one zone when that of the other is met, so which is looked for first decides; two correct sorts give Ok and Err. Proved: if wildcard answers with the same next closer name have the same signer, any order of looking gives the same verdict, NSEC and NSEC3 alike, in debug and release builds."
  },
  {
   "property": "C83",
   "status": "partial",
   "theorems": [
    "C83_at_wildcard_partial",
    "C83_at_wildcard_refuted",
    "C83_own_denial"
   ],
   "note": "Refuted: the labels field of an RRSIG over records at *.a. is 1 (RFC 4034 3.1.3), the code compares it with the two labels of the owner and asks for a denial of *.a. itself; a correct stream without one is turned down. Proved: it is accepted when the (not last) NSEC records of those wildcard names are in the stream, and C83_own_denial: whenever such a record is returned, some NSEC or NSEC3 record passed for a denial of its own name and type."
  },
  {
   "property": "C84",
   "status": "partial",
   "theorems": [
    "C84_vouching_partial",
    "C84_signing_refuted"
   ],
   "note": "Refuted: verify_rrsig tests the ZONE flag of a key but not REVOKE, so a record signed only by a revoked key of a zone's DNSKEY RRset is returned as verified. Proved: the key that vouches for the DNSKEY RRset of a reached zone is not revoked if the zone's DS records (or the trust anchors) were made for keys not revoked, since the digest covers the flags; the only way out is a collision of SHA-1 or SHA-256."
  },
  {
   "property": "C85",
   "status": "partial",
   "theorems": [
    "C85_records",
    "C85_answers",
    "C85_window_partial",
    "C85_window_refuted"
   ],
   "note": "Records and answers: proved in full. The window and TTL: proved if the RRSIGs over DNSKEY RRsets keep their order and new ones come after them (such as when records are appended); refuted otherwise, as the first valid RRSIG over a DNSKEY RRset is the only one counted, so one put in front can replace a shorter-lived one."
  },
  {
   "property": "C86",
   "status": "partial",
   "theorems": [
    "C86_roll_partial",
    "C86_roll_refuted"
   ],
   "note": "Proved if there is a DS record for each key which signs the DNSKEY RRset (double-DS), and for keys told apart by tag and algorithm. Refuted for the double-signature method: the RRSIG of a key without DS record must not come before that of the key with one (verify_dnskeys ends at the first RRSIG of a known algorithm, valid or not)."
  },
  {
   "property": "C87",
   "status": "partial",
   "theorems": [
    "C87_rules_partial",
    "C87_signer_refuted",
    "C87_labels_refuted",
    "C87_zone_refuted"
   ],
   "note": "All rules but: the signer's name of an RRSIG over DNSKEYs, the labels field of one over NSEC, and the label boundary of the zone's name (as in C23), each refuted. For inputs without an RRSIG over no records whose labels field is 255 (C26)."
  },
  {
   "property": "C88",
   "status": "partial",
   "theorems": [
    "C88_unsupported_reason",
    "C88_invalid_reason_partial",
    "C88_unsupported_partial",
    "C88_invalid_partial",
    "C88_unsupported_refuted",
    "C88_invalid_refuted",
    "C88_sha384_refuted"
   ],
   "note": "Exact when not both an unsupported and a broken zone are come to; with both, the order of the records decides. SHA-384 counts as an implemented digest in choosing the error though it is not. The part about Invalid assumes at most two NSEC3 parameter sets per zone (C60) and one zone per denied name."
  },
  {
   "property": "C89",
   "status": "partial",
   "theorems": [
    "C89_wire_partial",
    "C89_txt_refuted",
    "C89_next_refuted",
    "C89_nsec_owner_refuted",
    "C89_order_refuted"
   ],
   "note": "The equivalence holds (C89_wire_partial) for RRsets whose TXT strings are full but for the last one, whose NSEC next names are in lower case, whose NSEC records are not from wildcards, and whose names in the RDATA, if there is more than one record, are in one order as texts and as octets (Orderly). Each of these conditions is necessary: dropping any one of them alone is refuted with a legally signed RRset which the code rejects (TXT strings are re-split; NSEC next names are lower-cased although RFC 6840 5.1 says they are not; the whole owner is used for NSEC whatever the labels field says; names in RDATA are sorted as text). RRSIG records are not signed and so not covered. Signature schemes are arbitrary functions."
  },
  {
   "property": "C90",
   "status": "proved",
   "theorems": [
    "C90_exact",
    "C90_verdict",
    "C90_labels_refuted"
   ],
   "note": "C90_labels_refuted shows that the differences do include one a reader would not expect: the label a.b and the labels a, b are read as the same name (its signed octets are those of the two labels, so a signature over the other form is not accepted)."
  },
  {
   "property": "C91",
   "status": "partial",
   "theorems": [
    "C91_reads",
    "C91_exact_partial",
    "C91_exact_refuted",
    "C91_necessary_partial",
    "C91_result_partial"
   ],
   "note": "Composition of parser, canonical form, signature check and chain of trust, from the octets. Missing: streams which are not Tidy (C89: TXT records of several short strings - C91_exact_refuted -, upper case in next names of NSEC, NSEC from wildcards, the order of records with names in their RDATA), more than two sets of NSEC3 parameters, and two zones answering for one name from wildcards (C60); each of these exceptions is real, by the refutations of C89, C60 and C91."
  },
  {
   "property": "C92",
   "status": "partial",
   "theorems": [
    "C92_published_partial",
    "C92_world",
    "C92_boundary_refuted"
   ],
   "note": "As C62, with the zones' signatures given as octets (PubSpec.v): SOA, MX and other types, names with any octets, and any legal RDATA are among what is signed. The full statement needs only the zones above a name to be honest; refuted as in C62 (label boundary), so it is proved where all zones whose name ends the record's name textually are honest. C92_world carries the other theorems on a World (C69 to C72, C74) over to such zones."
  },
  {
   "property": "C93",
   "status": "partial",
   "theorems": [
    "C93_answers_partial",
    "C93_dns_partial",
    "C93_seen_partial",
    "C93_origin_partial",
    "C93_exact_partial",
    "C93_boundary_refuted"
   ],
   "note": "The statements of C70, C72 and C69 carried over to zones which sign anything on the wire (EndSpec.v), from the octets of the proof and in both build modes. What is missing is what those lack: the label boundary (refuted here as well), DNAME records taken on texts, escapes of the JSON, and the three conditions for wildcards. For these the NSEC records which the zones sign list ordinary types (C96), or the next names given have no empty labels."
  },
  {
   "property": "C94",
   "status": "proved",
   "theorems": [
    "C94_local",
    "C94_tight"
   ],
   "note": "The dependence is stated on results (equal on all packets which agree on these octets), not by counting steps of the model; the octets of a label which makes the name too long are compared by the code (UTF-8) but do not matter to the result and are not counted."
  },
  {
   "property": "C95",
   "status": "partial",
   "theorems": [
    "C95_whole",
    "C95_prefix_partial",
    "C95_client_partial",
    "C95_prefix_refuted",
    "C95_queries"
   ],
   "note": "For the answer of the server this needs a connection which, once a write has failed, takes nothing any more (as TCP sockets do); the code itself ignores the error of writing the header and goes on to write the proof, so that without this the statement is refuted. No condition for the queries, whose errors end the building of the proof."
  },
  {
   "property": "C96",
   "status": "partial",
   "theorems": [
    "C96_octets",
    "C96_one_partial",
    "C96_two_partial",
    "C96_refuted"
   ],
   "note": "Unambiguous for names which keep to the rules (OrdinaryTypes: NSEC listed, no MD, MF, MB, no SOA without NS, nothing from 32 to 39 besides CNAME, nothing from 256 at a delegation), whatever else is listed. Otherwise there is at most one other reading, which is described; the statement without condition is refuted by a record which lists MF, and a proof made with the other reading is accepted for a name which has records of its own (C69_next_refuted)."
  },
  {
   "property": "C97",
   "status": "proved",
   "theorems": [
    "C97_same",
    "C97_shape",
    "C97_stops",
    "C97_checks",
    "C97_exponential",
    "C97_product",
    "C97_linear_refuted"
   ],
   "note": "About a second model of validation.rs with a log of the questions (TraceM.v), whose results are those of the first (C97_same). C97_shape and C97_checks are the bounds and C97_stops the end after a refusal. C97_product and C97_exponential show that the bounds cannot be made linear in the number of records; C97_linear_refuted states that for the digests."
  },
  {
   "property": "C98",
   "status": "proved",
   "theorems": [
    "C98_same",
    "C98_name",
    "C98_response",
    "C98_reached",
    "C98_smaller_refuted",
    "C98_fits",
    "C98_proof",
    "C98_records"
   ],
   "note": "The readers with a count of the octets looked at for names (StepM.v) give what the readers give; the bounds for a name, a response and a proof hold for all messages, and messages are given which reach them. Other octets are read once from the front and are not counted; nor is the work of Name::try_from, which goes over at most 255 octets for each name."
  },
  {
   "property": "C99",
   "status": "partial",
   "theorems": [
    "C99_order",
    "C99_goes_on",
    "C99_tcp",
    "C99_verdict_partial",
    "C99_bytes_refuted",
    "C99_verdict_refuted"
   ],
   "note": "All but the last clause proved in full. Whether the proof verifies depends on the order if the RRSIGs over the DNSKEYs of one zone are spread over two answers (C99_verdict_refuted); C99_verdict_partial is for resolvers which keep them together, with the conditions of C60."
  }
 ]
}
