{"id": "C01", "title": "Name construction accepts exactly the documented names", "statement": "Name::try_from(s) succeeds exactly when s is a non-empty sequence of dot-terminated labels, each at most 63 printable-ASCII characters other than '\"', totalling at most 255 bytes; the resulting Name is s with ASCII letters lower-cased.", "quantifier": "every string", "why_tests_cant": "the accepted set is infinite; boundary lengths (63/64, 255/256) interact with label splitting", "anchors": ["src/rr.rs: Name, TryFrom<String> for Name"]}
{"id": "C02", "title": "Names are case-insensitive and re-parsing is the identity", "statement": "Two strings differing only in ASCII case give equal Names (or both fail); converting a Name's text back yields the same Name.", "quantifier": "every pair of strings equal up to ASCII case; every Name", "why_tests_cant": "infinitely many strings", "anchors": ["src/rr.rs: TryFrom<String> for Name, Name::as_str"]}
{"id": "C03", "title": "labels() and trailing_n_labels() agree with the label structure", "statement": "For a Name made of k labels, labels() is k (0 for the root) and trailing_n_labels(n) is Some of the text of the last n labels for n <= k ('.' for n = 0) and None for n > k; every string returned is itself a valid Name that is a suffix of the original.", "quantifier": "every Name and every n in 0..=255", "why_tests_cant": "all names times all n cannot be enumerated", "anchors": ["src/rr.rs: Name::labels, Name::trailing_n_labels"]}
{"id": "C04", "title": "Wire-format name decoding is exact and always terminates", "statement": "Reading a (possibly compressed) domain name from a packet always finishes, even with pointer loops, never panics, and succeeds exactly when the bytes are a label sequence ended by the root label or by a chain of at most 255 in-range pointers whose dotted text is an acceptable Name.", "quantifier": "every packet, every start position", "why_tests_cant": "pointer graphs are unbounded; loops and overlapping labels are adversarial", "anchors": ["src/ser.rs: read_wire_packet_name, do_read_wire_packet_labels"]}
{"id": "C05", "title": "Proof streams never use name compression", "statement": "parse_rr_stream rejects any record whose owner name contains a compression pointer.", "quantifier": "every byte stream", "why_tests_cant": "adversarial inputs", "anchors": ["src/ser.rs: parse_rr, parse_rr_stream"]}
{"id": "C06", "title": "Name write/read round-trip", "statement": "Every Name without an empty inner label, written in wire form, is read back unchanged by any reader, leaving exactly the following bytes; the written form has the length the writer announces in RDLENGTH. Stated for all Names the API can hold.", "quantifier": "every Name, every following bytes", "why_tests_cant": "infinitely many names", "anchors": ["src/ser.rs: write_name, name_len, read_wire_packet_name"]}
{"id": "C07", "title": "Record write/parse round-trip", "statement": "write_rr(rr, ttl) followed by any bytes is parsed back as exactly (rr, ttl) leaving exactly those bytes, for every record type the crate supports and every record the API can hold whose RDATA fits a 16-bit length.", "quantifier": "every record of all 12 types, every ttl, every following bytes", "why_tests_cant": "unbounded record contents", "anchors": ["src/ser.rs: write_rr, parse_wire_packet_rr, parse_rr_stream", "src/rr.rs: write_u16_len_prefixed_data, read_from_data"]}
{"id": "C08", "title": "Stream round-trip and truncation detection", "statement": "Writing a list of records back to back and parsing the stream yields exactly the list, in order; cutting such a stream anywhere other than a record boundary makes parsing fail, and cutting it at a boundary yields exactly the records before the cut.", "quantifier": "every list of records, every cut position", "why_tests_cant": "unbounded lists and cut points", "anchors": ["src/ser.rs: parse_rr_stream, write_rr"]}
{"id": "C09", "title": "Parsing accepts exactly the record grammar", "statement": "parse_rr_stream(bytes) = Ok(rrs) exactly when bytes splits into consecutive records: owner name, a supported type, class IN, TTL, RDLENGTH and exactly RDLENGTH bytes of RDATA decoding to the record's fields; everything else is an error.", "quantifier": "every byte string", "why_tests_cant": "all byte strings", "anchors": ["src/ser.rs: parse_wire_packet_rr, parse_rr_stream", "src/rr.rs: read_from_data"]}
{"id": "C10", "title": "Parsing never panics and always terminates", "statement": "parse_rr_stream returns (Ok or Err) on every byte string: it neither panics nor loops.", "quantifier": "every byte string, release and debug builds", "why_tests_cant": "adversarial inputs; out-of-range slice indices only on specific block/len pairs", "anchors": ["src/ser.rs: parse_rr_stream, read_nsec_types_bitmap", "src/rr.rs: read_from_data"]}
{"id": "C11", "title": "NSecTypeMask is a set of types", "statement": "NSecTypeMask::from_types(ts).contains_type(t) is true exactly when t is in ts; new() contains nothing.", "quantifier": "every list of u16 types, every type", "why_tests_cant": "2^16 types times all lists", "anchors": ["src/rr.rs: NSecTypeMask::from_types, contains_type, new"]}
{"id": "C12", "title": "NSEC type bitmaps round-trip", "statement": "The window-block encoding written for a type mask has the length announced and reads back as exactly the same mask.", "quantifier": "every 8192-byte mask", "why_tests_cant": "2^65536 masks", "anchors": ["src/ser.rs: write_nsec_types_bitmap, nsec_types_bitmap_len, read_nsec_types_bitmap"]}
{"id": "C13", "title": "Parsed RDATA is preserved by re-serialisation", "statement": "If a record was parsed from a stream, write_rr emits the same RDATA bytes that were parsed (so the bytes the zone signed are the bytes checked), for canonical (lower-case) input.", "quantifier": "every accepted record", "why_tests_cant": "unbounded inputs; TXT chunking and trailing bytes are the hidden cases", "anchors": ["src/rr.rs: Txt::read_from_data, Txt::write_u16_len_prefixed_data"]}
{"id": "C14", "title": "DNSKEY key tags follow RFC 4034 Appendix B", "statement": "DnsKey::key_tag() is the RFC 4034 Appendix B checksum of the key's RDATA, and its 32-bit accumulator cannot overflow for any key that fits in a record.", "quantifier": "every DNSKEY", "why_tests_cant": "all key lengths and contents", "anchors": ["src/rr.rs: DnsKey::key_tag"]}
{"id": "C15", "title": "RSA public keys are split per RFC 3110", "statement": "An RSA DNSKEY is decoded into exponent and modulus exactly per RFC 3110 (1- or 3-byte length), with no byte lost or invented, a non-empty modulus, and no out-of-range access.", "quantifier": "every byte string", "why_tests_cant": "all lengths", "anchors": ["src/validation.rs: bytes_to_rsa_pk"]}
{"id": "C16", "title": "NSEC3 owner hash decoding is exact base32hex", "statement": "Decoding succeeds on exactly the (case-insensitive) RFC 4648 base32hex encodings without padding and inverts the encoding; non-zero spare bits, bad lengths and bad characters are rejected.", "quantifier": "every string and every byte string", "why_tests_cant": "all strings", "anchors": ["src/base32.rs: decode, encode"]}
{"id": "C17", "title": "NSEC name ordering is RFC 4034 canonical order", "statement": "The order used to decide whether an NSEC record covers a name is the RFC 4034 section 6.1 order: compare label lists from the right, each label as a case-folded octet string; it is a total order on names.", "quantifier": "every pair and triple of names", "why_tests_cant": "infinitely many names", "anchors": ["src/validation.rs: nsec_ord"]}
{"id": "C18", "title": "Every verified record is authenticated from the root anchors", "statement": "If verify_rr_stream(inp) is Ok, every returned record belongs to an RRset all of whose records in inp were covered by one valid RRSIG in inp made by a zone key (protocol 3, ZONE flag, matching tag and algorithm) in the DNSKEY RRset of the RRSIG's signer; that DNSKEY RRset is validly signed by a key whose digest is in a DS RRset itself authenticated by an already trusted zone, starting from the built-in root trust anchors.", "quantifier": "every record list, every behaviour of the signature and hash primitives", "why_tests_cant": "soundness over all adversarial streams", "anchors": ["src/validation.rs: verify_rr_stream, verify_dnskeys, verify_rrsig, root_hints"]}
{"id": "C19", "title": "The bytes checked by a signature are the RFC 4034 3.1.8.1 bytes", "statement": "Each signature is checked over RRSIG RDATA (without signature) followed by, for every record of the RRset in sorted order, owner (wildcard-reduced when labels < owner labels), type, class IN, original TTL, RDLENGTH, RDATA.", "quantifier": "every RRSIG, every RRset", "why_tests_cant": "all contents", "anchors": ["src/validation.rs: verify_rrsig"]}
{"id": "C20", "title": "Only input data records are returned, once each", "statement": "Every record returned by verify_rr_stream is one of the input records, none is returned twice, and none is a DNSKEY, DS, RRSIG, NSEC or NSEC3 record; an Ok result contains at least one record.", "quantifier": "every record list", "why_tests_cant": "all streams", "anchors": ["src/validation.rs: verify_rr_stream"]}
{"id": "C21", "title": "Validity window and cache TTL are conservative", "statement": "valid_from is at least the resolved inception, expires at most the resolved expiration, and max_cache_ttl at most the original TTL of every RRSIG relied on, each bound being attained; valid_from < expires in every Ok result.", "quantifier": "every record list", "why_tests_cant": "all streams; min/max over an unbounded set of signatures", "anchors": ["src/validation.rs: verify_rr_stream, VerifiedRRStream"]}
{"id": "C22", "title": "Verification is all-or-nothing and complete for reached zones", "statement": "If verify_rr_stream is Ok then no RRSIG made by a reached zone was invalid, and every record set covered by a valid RRSIG of a reached zone is returned (unless it is DNSSEC metadata).", "quantifier": "every record list", "why_tests_cant": "all streams", "anchors": ["src/validation.rs: verify_rr_stream"]}
{"id": "C23", "title": "A zone can only vouch for names inside it", "statement": "Every returned record's owner name is equal to, or a subdomain (on a label boundary) of, the zone whose key signed it.", "quantifier": "every record list, every signer zone", "why_tests_cant": "needs adversarial zone/name pairs such as a.com. / bba.com.", "anchors": ["src/validation.rs: verify_rr_stream (rrsig.name.ends_with(zone))"]}
{"id": "C24", "title": "Wildcard answers need a proof that the name does not exist", "statement": "A record synthesised from a wildcard is returned only if a verified NSEC/NSEC3 record of the signing zone proves that the next-closer name does not exist (it lies strictly between owner and next).", "quantifier": "every record list", "why_tests_cant": "needs an NSEC whose owner equals the name, or one from another zone", "anchors": ["src/validation.rs: verify_rr_stream (proof_search_loop)"]}
{"id": "C25", "title": "Verification always terminates", "statement": "verify_rr_stream returns for every record list.", "quantifier": "every record list", "why_tests_cant": "non-termination needs validly signed but unusual record sets", "anchors": ["src/validation.rs: verify_rr_stream ('next_zone loop)"]}
{"id": "C26", "title": "Verification never panics", "statement": "verify_rr_stream never panics on any record list obtained from parse_rr_stream.", "quantifier": "every record list, release and debug builds", "why_tests_cant": "overflow needs a validly signed RRSIG with labels = 255", "anchors": ["src/validation.rs: verify_rr_stream"]}
{"id": "C27", "title": "Delegation digests: SHA-1 is not trusted when stronger digests exist", "statement": "A DNSKEY is accepted through a SHA-1 DS only when the DS RRset has no SHA-256/SHA-384 entry; a DS RRset with only unknown digest types yields UnsupportedAlgorithm and an empty one Invalid.", "quantifier": "every DS RRset, every DNSKEY RRset", "why_tests_cant": "all combinations of DS sets", "anchors": ["src/validation.rs: verify_dnskeys"]}
{"id": "C28", "title": "Unsupported algorithms are reported as such", "statement": "When the only reason a zone cannot be validated is that its DS digests or signature algorithms are not implemented, verification reports UnsupportedAlgorithm (not Invalid), and never Ok.", "quantifier": "every DS/DNSKEY/RRSIG set", "why_tests_cant": "all combinations; the digest-type-4 case is accepted as known but not implemented", "anchors": ["src/validation.rs: verify_dnskeys, ValidationError"]}
{"id": "C29", "title": "Signature-check work is bounded (KeyTrap)", "statement": "Checking one RRSIG performs at most one public-key operation whatever the number of colliding keys, so a run that visits z zones performs at most z times the number of RRSIGs in the input.", "quantifier": "every record list, every key set", "why_tests_cant": "a resource bound over all inputs", "anchors": ["src/validation.rs: verify_rrsig, verify_rr_stream"]}
{"id": "C30", "title": "NSEC3 hashing work is bounded", "statement": "Looking for the denial of one name computes at most 2 x 2501 SHA-1 hashes whatever NSEC3 records the stream contains.", "quantifier": "every record list", "why_tests_cant": "a resource bound over all inputs", "anchors": ["src/validation.rs: verify_rr_stream (nsec3params_to_name_hash)"]}
{"id": "C31", "title": "RRset order does not matter", "statement": "Permuting the records of an RRset in the input does not change whether its signature verifies; more generally the verdict of verify_rr_stream does not depend on the order of the input records.", "quantifier": "every permutation of every input", "why_tests_cant": "n! orders of unbounded lists", "anchors": ["src/validation.rs: verify_rrsig (sort_unstable), verify_rr_stream"]}
{"id": "C32", "title": "RRsets are hashed in RFC 4034 canonical order", "statement": "Within an RRset records are ordered by their RDATA as octet strings (RFC 4034 section 6.3), for every supported type.", "quantifier": "every RRset of every type", "why_tests_cant": "needs names/TXT data whose text order differs from wire order", "anchors": ["src/rr.rs: derived Ord, PartialOrd for Txt"]}
{"id": "C33", "title": "resolve_name returns exactly the records at the end of the alias chain", "statement": "resolve_name(n), when it returns, returns all and only the verified records at the name reached from n by following verified CNAME/DNAME records.", "quantifier": "every verified record set, every name", "why_tests_cant": "unbounded alias chains", "anchors": ["src/validation.rs: VerifiedRRStream::resolve_name"]}
{"id": "C34", "title": "resolve_name terminates", "statement": "resolve_name returns for every verified record set and name.", "quantifier": "every record set, including alias loops", "why_tests_cant": "needs loops among validly signed CNAME/DNAME", "anchors": ["src/validation.rs: VerifiedRRStream::resolve_name"]}
{"id": "C35", "title": "DNAME redirects only proper subdomains", "statement": "A DNAME at d is applied only to names that are strictly below d on a label boundary.", "quantifier": "every DNAME owner and name", "why_tests_cant": "needs names like xd. for DNAME d. and the owner itself", "anchors": ["src/validation.rs: VerifiedRRStream::resolve_name"]}
{"id": "C36", "title": "QueryBuf behaves as a byte vector", "statement": "After any sequence of appends totalling at most 65535 bytes a QueryBuf dereferences (and converts via into_vec) to exactly the concatenation of what was appended, across the inline/heap switch; new_zeroed(n) is n zero bytes; equality is equality of contents.", "quantifier": "every sequence of appends", "why_tests_cant": "all sequences and sizes around the 2048 switch", "anchors": ["src/query.rs: QueryBuf"]}
{"id": "C37", "title": "QueryBuf never panics on overlong data", "statement": "Appending beyond 65535 bytes leaves the contents unspecified but does not panic (documented).", "quantifier": "every append", "why_tests_cant": "needs >64KiB data", "anchors": ["src/query.rs: QueryBuf::extend_from_slice"]}
{"id": "C38", "title": "Queries are well-formed DNS messages for the requested name and type", "statement": "The query emitted for (name, ty) has id 0, RD+AD flags, one question which decodes to exactly that name (for names without empty labels), type and class IN, and one OPT record with the DO bit; it is at most 293 bytes.", "quantifier": "every name and type", "why_tests_cant": "infinitely many names", "anchors": ["src/query.rs: build_query, ProofBuilder::new"]}
{"id": "C39", "title": "Resolver responses are filtered", "statement": "A response is accepted only if its id is 0, it is a non-truncated standard-query response with RCODE 0 and the AD bit set, has exactly one question and at least one answer; only answers, and NSEC/NSEC3 records with their RRSIGs from the authority section, enter the proof.", "quantifier": "every response byte string", "why_tests_cant": "2^16 flag words times all bodies", "anchors": ["src/query.rs: handle_response"]}
{"id": "C40", "title": "At most ten queries per proof and guaranteed termination", "statement": "Whatever the resolver answers, a ProofBuilder hands out at most 10 queries in total, and driving it while awaiting_responses() is true processes at most 10 accepted responses.", "quantifier": "every sequence of responses", "why_tests_cant": "adversarial resolver histories", "anchors": ["src/query.rs: ProofBuilder, build_proof_impl"]}
{"id": "C41", "title": "Every signer is queried exactly once", "statement": "For every RRSIG accepted into the proof, the signer's DNSKEY (and, unless it is the root, DS) is queried, exactly once over the builder's life, as long as the query budget is not exceeded, and nothing else is queried.", "quantifier": "every sequence of responses", "why_tests_cant": "adversarial resolver histories", "anchors": ["src/query.rs: ProofBuilder::process_response"]}
{"id": "C42", "title": "finish_proof succeeds only when every query was answered", "statement": "finish_proof is Ok exactly when every query issued has had an accepted response and the budget was not exceeded; awaiting_responses and finish_proof are consistent.", "quantifier": "every sequence of responses", "why_tests_cant": "all histories", "anchors": ["src/query.rs: ProofBuilder::awaiting_responses, finish_proof, process_response"]}
{"id": "C43", "title": "The finished proof parses back to exactly the accepted records", "statement": "The bytes returned by finish_proof are accepted by parse_rr_stream and yield exactly the records accepted from the responses, in order.", "quantifier": "every sequence of responses", "why_tests_cant": "compressed names expand when re-serialised; lengths can overflow", "anchors": ["src/query.rs: handle_response, finish_proof", "src/ser.rs: write_rr, parse_rr_stream"]}
{"id": "C44", "title": "The returned cache TTL is the minimum record TTL", "statement": "The TTL returned with a proof is the minimum of the TTLs of all records in the proof.", "quantifier": "every sequence of responses", "why_tests_cant": "all histories, including rejected responses followed by retries", "anchors": ["src/query.rs: ProofBuilder::process_response, finish_proof"]}
{"id": "C45", "title": "A rejected response leaves the builder unchanged", "statement": "If process_response returns Err the builder's later observable behaviour (proof bytes, TTL, queries) is as if the call had not happened.", "quantifier": "every response and builder state", "why_tests_cant": "needs a response that fails part-way", "anchors": ["src/query.rs: ProofBuilder::process_response, handle_response"]}
{"id": "C46", "title": "TCP framing is lossless", "statement": "Messages sent with the 2-byte length prefix are read back exactly, in order, from the concatenated stream, however many there are; a truncated stream is an error.", "quantifier": "every sequence of messages up to 65535 bytes", "why_tests_cant": "unbounded sequences", "anchors": ["src/query.rs: send_query, read_response"]}
{"id": "C47", "title": "Signature timestamps resolve to the same 32-bit instant", "statement": "The 64-bit times reported are congruent modulo 2^32 to the RRSIG's 32-bit time, and never before January 1997.", "quantifier": "every u32 timestamp", "why_tests_cant": "2^32 values", "anchors": ["src/validation.rs: resolve_time"]}
{"id": "C48", "title": "The HTTP front end serves proofs only for well-formed requests", "statement": "A proof is built exactly when the first request line is 'GET /dnssecproof?<args> HTTP/1.0|1.1' with every argument of the form k=v, a d argument which is a valid name and a t argument equal (ignoring case) to TXT, TLSA, A or AAAA (last occurrence wins); every other complete request gets a 400 or 404, and requests without CRLF in 4096 bytes get 400.", "quantifier": "every request byte string", "why_tests_cant": "all byte strings", "anchors": ["src/http.rs: run_server"]}
{"id": "C49", "title": "HTTP responses do not depend on TCP segmentation", "statement": "The response to a request does not depend on how its bytes are split into reads.", "quantifier": "every request and every split", "why_tests_cant": "exponentially many splits", "anchors": ["src/http.rs: run_server"]}
{"id": "C50", "title": "HTTP responses are correctly framed", "statement": "Content-Length equals the length of the body in every response, and the header block contains no bytes taken from the request.", "quantifier": "every request and proof", "why_tests_cant": "all bodies", "anchors": ["src/http.rs: run_server"]}
{"id": "C51", "title": "RR::json emits valid JSON describing the record", "statement": "RR::json() is a syntactically valid JSON object whose fields decode to the record's fields, for every record.", "quantifier": "every record of every type", "why_tests_cant": "all names (backslash) and all TXT contents", "anchors": ["src/rr.rs: json, NSecTypeMask::write_json"]}
{"id": "C52", "title": "The WASM verify wrapper emits valid JSON", "statement": "verify_byte_stream returns, for every byte string, a valid JSON object: either {\"error\":...} or the validity window, TTL and the list of verified records.", "quantifier": "every byte string", "why_tests_cant": "all byte strings", "anchors": ["wasmpack/src/lib.rs: verify_byte_stream, do_verify_byte_stream"]}
{"id": "C53", "title": "The WASM builder hands out each query once, in order", "statement": "get_next_query returns every query produced by the underlying builder exactly once in FIFO order and never more than 10 in total; rejected or oversized responses never remove or duplicate queries.", "quantifier": "every interleaving of process_query_response and get_next_query calls", "why_tests_cant": "all call histories", "anchors": ["wasmpack/src/lib.rs: init_proof_builder, process_query_response, get_next_query"]}
{"id": "C54", "title": "Build-then-verify is faithful end to end", "statement": "Verifying the bytes of a finished proof is verifying exactly the records the resolver returned: the whole pipeline adds, drops and reorders nothing.", "quantifier": "every sequence of accepted responses", "why_tests_cant": "composition of all of the above over unbounded histories", "anchors": ["src/query.rs", "src/ser.rs", "src/validation.rs"]}
{"id": "C55", "title": "Validation work is bounded", "statement": "The number of zones verify_rr_stream visits (iterations of its loop over pending delegations) is at most the number of distinct zones with a DS record set.", "quantifier": "every record list", "why_tests_cant": "the worst case is exponential in the input", "anchors": ["src/validation.rs: verify_rr_stream"]}
{"id": "C57", "title": "Processing a response never panics", "statement": "ProofBuilder::process_response and build_proof return Ok or Err for every response, and do not panic or hang.", "quantifier": "every response byte string", "why_tests_cant": "all byte strings", "anchors": ["src/query.rs: handle_response, ProofBuilder::process_response"]}
{"id": "C58", "title": "The WASM builder builds the library's proof", "statement": "A WASM session ends with exactly the proof the library's builder ends with when given the same DNS messages (of up to 65535 octets) in the same order.", "quantifier": "every session, every sequence of responses", "why_tests_cant": "all histories, and a boundary only hit by responses of one particular length", "anchors": ["wasmpack/src/lib.rs: process_query_response, get_unverified_proof"]}
{"id": "C56", "title": "Repeating a record does not change the verdict", "statement": "Appending to a stream a second copy of a record which it already contains does not change the verdict of verify_rr_stream (RFC 4034 section 6.3 treats an RRset as a set; a resolver sends e.g. the same NSEC record with several answers).", "quantifier": "every record list and every record in it", "why_tests_cant": "repetition can be of any record type, anywhere in a chain of any depth", "anchors": ["src/validation.rs: verify_rrsig", "src/validation.rs: verify_rr_stream"]}
{"id": "C59", "title": "Unsigned records are ignored", "statement": "A record for whose name and type the stream has no RRSIG, of whatever type and wherever it is inserted, changes neither the verdict nor the result of verify_rr_stream.", "quantifier": "every record list, every such record, every position", "why_tests_cant": "a forged record can be of any type, at any depth of the chain and anywhere in the stream", "anchors": ["src/validation.rs: verify_rr_stream"]}
{"id": "C60", "title": "Exactly which streams are accepted", "statement": "verify_rr_stream accepts a record list exactly when every zone reached from the root through valid DS signatures has a DNSKEY RRset trusted through its delegation, every other RRSIG made by such a zone is valid (or of an unknown algorithm) and under its name, something is proven, the root delegates and no zone delegates itself, a moment exists at which all signatures used are valid, and every wildcard answer is denied by a proven NSEC/NSEC3 record under the zone which signed it; the result is then exactly the proven records (without NSEC/NSEC3) with the intersection of the validity windows and the least TTL of all signatures used.", "quantifier": "every record list, every crypto library", "why_tests_cant": "an equivalence over all record lists: tests can show neither that nothing else is accepted nor that nothing valid is turned down", "anchors": ["src/validation.rs: verify_rr_stream", "src/validation.rs: verify_dnskeys", "src/validation.rs: verify_rrsig"]}
{"id": "C61", "title": "Every valid denial of existence is recognised", "statement": "A wildcard answer whose next closer name is denied, according to RFC 4034/4035/5155, by a proven NSEC or NSEC3 record of the zone (including the last one, whose next name or hash is the first) is accepted.", "quantifier": "every acceptable record list", "why_tests_cant": "depends on where in the (hashed) name order the answer falls relative to the zone's last name; recorded test proofs hit the wrap-around only by chance", "anchors": ["src/validation.rs: verify_rr_stream (name_contained, hash_contained)"]}
{"id": "C62", "title": "Only what the zones published is returned", "statement": "If the signature scheme is unforgeable for the keys of honest zones, a delegation's digest identifies the keys of the zone it delegates to, and the zones on the way sign only their own RRsets, then every record verify_rr_stream returns is part of an RRset which a zone at or above its name published - complete, under that name or a wildcard covering it, and for no longer a time or TTL than published.", "quantifier": "every world of zones, every attacker-chosen record list", "why_tests_cant": "security against every possible attacker-supplied proof; tests can try only particular forgeries", "anchors": ["src/validation.rs: verify_rr_stream", "src/validation.rs: verify_rrsig", "src/validation.rs: verify_dnskeys"]}
{"id": "C63", "title": "Debug and release builds agree", "statement": "Parsing, validation, proof building and the WASM entry points give the same result (and leave the same state) in a debug build and in a release build, unless the debug build panics.", "quantifier": "every input", "why_tests_cant": "tests run in one build mode, on chosen inputs; debug assertions and overflow checks could guard differing behaviour", "anchors": ["src/ser.rs", "src/validation.rs", "src/query.rs", "wasmpack/src/lib.rs"]}
{"id": "C64", "title": "A proof is built and validates when the DNS is in order", "statement": "If the resolver answers every question that comes up and the zones from the root to the answer are correctly signed, then build_proof sends each question once, never waits for a response to a question it has not sent, and ends with a proof which parses back and validates, yielding exactly the records of the answer.", "quantifier": "every tree of correctly signed zones, every resolver serving them, every segmentation of its stream", "why_tests_cant": "liveness over all zone trees and response orders; tests replay a few recorded zones", "anchors": ["src/query.rs: build_proof", "src/query.rs: ProofBuilder", "src/validation.rs: verify_rr_stream"]}
{"id": "C65", "title": "A DNS-over-HTTPS lookup fetches the right URLs and returns the verified records", "statement": "lookup_doh fetches, in order, the RFC 8484 URLs of exactly the queries the library hands out, at most ten, stops at the first failure, and otherwise settles with the JSON of the verification of the proof built from the bodies; with an answering resolver and well-signed zones this is the JSON of exactly the answers. Whatever it settles with is JSON.", "quantifier": "every domain, type, endpoint, and behaviour of the server and the network; every tree of well-signed zones", "why_tests_cant": "the driver is JavaScript without tests; adversarial servers, arbitrary query bytes in base64url, all interleavings of failure", "anchors": ["wasmpack/doh_lookup.js: lookup_doh", "wasmpack/src/lib.rs"]}
{"id": "C66", "title": "The HTTP server delivers a proof that validates", "statement": "A client whose request line asks for a name and type, when the resolver answers every question and the zones are correctly signed, receives a 200 response with the exact length of the body, the least TTL as max-age, and a body which parses back and validates with exactly the records of the answer, whatever other clients do and however the bytes of both connections are segmented.", "quantifier": "every request line, every tree of well-signed zones, every interleaving of the events of all connections, every segmentation", "why_tests_cant": "the schedules of an asynchronous server and the segmentations of two streams are unbounded", "anchors": ["src/http.rs: run_server", "src/query.rs: build_proof_async"]}
{"id": "C67", "title": "Connections of the HTTP server are independent", "statement": "What the server writes to a client, and to the resolver on its behalf, depends only on what arrives on that client's own two connections, not on the schedule, on other clients or on panics in other tasks; nothing is written to a client before its request is decided; and a connection whose task is run has always ended or waits for its own client or the resolver.", "quantifier": "every interleaving of accepts, arrivals on any connection and polls of any task", "why_tests_cant": "all schedules of an unbounded number of concurrent connections", "anchors": ["src/http.rs: run_server", "src/query.rs: build_proof_async"]}
{"id": "C68", "title": "The fuzz targets neither panic nor hang, and a fuzz build decides like a build for use", "statement": "On every input the three fuzz targets return without panicking; the parts compiled differently for fuzzing (the size of the buffer on the stack, the signature shortcut, the capacity assertion) do not change what the code under test does, except that signatures starting with 1 pass.", "quantifier": "every byte string, every crypto library", "why_tests_cant": "the targets exist to look for inputs which random search may never hit; the property is about all of them", "anchors": ["fuzz/src/fuzz_builder.rs", "fuzz/src/parse_response.rs", "fuzz/src/parse_stream_validate.rs", "src/query.rs: fuzz_response, fuzz_proof_builder, QueryBuf", "src/validation.rs: verify_rrsig", "src/base32.rs: decode_data"]}
{"id": "C69", "title": "An answer from a wildcard does not replace what exists", "statement": "In a world of honest zones whose NSEC and NSEC3 records are true, a returned record which was synthesised from a wildcard is for a name at which nothing of that type was published.", "quantifier": "every world of zones, every record stream made from what they have signed, every wildcard and denial record", "why_tests_cant": "the tests have a handful of recorded answers; which combinations of published denials and wildcards an attacker can put together is a question about all zones", "anchors": ["src/validation.rs: verify_rr_stream (wildcards, non-existence proofs)", "src/validation.rs: nsec_ord", "src/validation.rs: verify_rrsig"]}
{"id": "C70", "title": "The answer for a name is what the DNS says", "statement": "Verifying a proof and resolving a name in the result returns only records to which published CNAME and DNAME records (RFC 6672) lead from the name, each as its zone has published it, if the zones with a say about the names on the way are honest.", "quantifier": "every world of zones, honest or not, every proof, every name, both build modes", "why_tests_cant": "tests resolve single examples in lists written by hand; this composes parsing, validation and alias resolution for all proofs an attacker may put together", "anchors": ["src/validation.rs: verify_rr_stream", "src/validation.rs: VerifiedRRStream::resolve_name", "src/ser.rs: parse_rr_stream"]}
{"id": "C71", "title": "A lookup with a correct resolver and correctly signed zones returns the zones' records", "statement": "If the resolver answers every question with the signed records of a tree of zones under the trust anchors, then building a proof for a name and type, reading it, verifying it and resolving the name in it returns exactly the records of the answer at the name its CNAME and DNAME records lead to.", "quantifier": "every such tree, answer, resolver, name and type, every TCP segmentation", "why_tests_cant": "needs all chains of aliases, segmentations and trees; the tests run single recorded proofs", "anchors": ["src/query.rs:build_proof*", "src/ser.rs:parse_rr_stream", "src/validation.rs:verify_rr_stream", "src/validation.rs:545-575 resolve_name"]}
{"id": "C72", "title": "What a JavaScript caller of lookup_doh reads is what the zones have published", "statement": "If the text with which the promise of lookup_doh is fulfilled, read as JSON, describes a verification result, then that result is one of the validator's with the same times and TTL, and each of its RRsets is as an honest zone has published it, if the zones with a say about the name shown are honest.", "quantifier": "every world of zones, honest or not, every resolver and response, every domain and type, both build modes, every JSON reformatter with the properties of ECMA-262", "why_tests_cant": "composes the network responses, the proof builder, parsing, validation, the JSON writer and the JSON reader for all inputs; there is no test of the JavaScript at all", "anchors": ["wasmpack/doh_lookup.js:8-61", "wasmpack/src/lib.rs:verify_byte_stream", "src/rr.rs: json()", "src/validation.rs: verify_rr_stream"]}
{"id": "C73", "title": "A clock inside the reported window means every signature relied on may be used then", "statement": "If the current time, up to 2133, lies between valid_from and expires, every record returned is authenticated by a chain of signatures each of which RFC 4034 (serial arithmetic, RFC 1982) allows to be used at that time; and no time at which all of them may be used is outside the window.", "quantifier": "every stream the validator accepts, every clock value, every crypto oracle, both build modes", "why_tests_cant": "no test reads valid_from or expires against a clock; the wrap of 2106 and periods over 68 years occur in no test vector", "anchors": ["src/validation.rs:248-291", "src/validation.rs:340-360", "src/validation.rs:505-535"]}
{"id": "C74", "title": "UnsupportedAlgorithm is reported only if a zone has chosen algorithms the validator lacks", "statement": "If verification fails with UnsupportedAlgorithm, some zone delegated to from the root down by signed DS RRsets has published a DS RRset of which the validator supports no entry (RFC 4035 section 5.2), so that using the data unverified, as the documentation of the error says, gives nothing away.", "quantifier": "every record list, every world of zones, every crypto oracle, both build modes", "why_tests_cant": "the input is chosen by whoever answers the queries; the tests contain no stream which ends in this error", "anchors": ["src/validation.rs:36-50 ValidationError", "src/validation.rs:176-245 verify_dnskeys", "src/validation.rs:129-140 verify_rrsig"]}
{"id": "C75", "title": "Two proofs can be made into one", "statement": "If two proofs are accepted and their validity windows overlap, a proof which contains the records of both is accepted, returns exactly the records the two return, and is valid exactly when both are.", "quantifier": "every pair of accepted record lists, every crypto oracle", "why_tests_cant": "the tests join chains at hand-picked points for a few zones; none says which pairs of proofs may be combined", "anchors": ["src/validation.rs:350-460 verify_rr_stream", "src/validation.rs:1195-1230 chains joined in the tests"]}
{"id": "C76", "title": "The orders of records are total and agree", "statement": "partial_cmp and cmp of RR are each a total order consistent with equality, and they agree, as the contract of Ord demands; so sorting puts an RRset in the same order whichever of the two is used.", "quantifier": "every pair of records", "why_tests_cant": "the test sorts one set of TXT records with sort(), which uses only one of the two orders", "anchors": ["src/rr.rs:78 RR", "src/rr.rs:246-275 Txt", "src/validation.rs:95 sort_unstable"]}
{"id": "C77", "title": "A built proof lists the chain in order", "statement": "The records of a built proof come in the order of the chain: the answer first, then the DNSKEY and DS records which were queried for, each after an RRSIG which names their zone as the signer, with the chain complete, and the root's DNSKEYs last.", "quantifier": "every sequence of responses, answering the queries in every possible order", "why_tests_cant": "the builder is only run against live resolvers, and never with answers out of order", "anchors": ["src/query.rs:210-300 ProofBuilder", "src/ser.rs:183 RFC 9102 AuthenticationChain"]}
{"id": "C78", "title": "The size of a proof is bounded by what was received", "statement": "At any time the records a proof builder holds take at most 261/7 times the octets of the responses given to it, accepted or not, and a proof built over TCP is at most 24428854 octets long; the factor cannot be improved.", "quantifier": "every sequence of responses, of any content", "why_tests_cant": "the worst case needs names compressed in every record and a name of maximal length; no test has a hostile resolver", "anchors": ["src/query.rs:115-175 handle_response", "src/query.rs:249-291 process_response, finish_proof", "src/ser.rs:77-123 names"]}
{"id": "C79", "title": "RRsets can be left out of a proof", "statement": "If a proof is accepted, so is what remains when any RRsets other than DS, NSEC, DNSKEY and NSEC3 are left out together with their signatures, as long as something verified remains; exactly the verified records which were not left out are returned, and the result is valid at least as long. DS, NSEC and NSEC3 RRsets can go too if the root still delegates and the expanded wildcards are still denied. Leaving RRsets out never adds to the result. (For proofs with at most two sets of NSEC3 parameters per wildcard zone and one zone per expanded name.)", "quantifier": "every accepted record list and every set of RRsets", "why_tests_cant": "the tests verify whole proofs only; the claim relates two runs of the verifier over all record lists", "anchors": ["src/validation.rs:350-460 verify_rr_stream", "src/validation.rs:71-125 verify_rrsig"]}
{"id": "C80", "title": "The hasher hashes what it is given, in one piece or many", "statement": "For engines that compute a hash of the concatenation of their input: the DNSKEYs picked by hashing owner name and fields piece by piece are exactly those a DS record delegates to, in order; the iterated NSEC3 hash is that of RFC 5155 (SHA-1); the way the input is cut makes no difference to any hasher.", "quantifier": "every hash library computing functions of its whole input, all keys, DS records, names, salts and iteration counts", "why_tests_cant": "the tests hash a few fixed keys and names", "anchors": ["src/crypto/hash.rs:10-54 Hasher", "src/ser.rs:112 Writer for Hasher", "src/validation.rs:196-220 verify_dnskeys", "src/validation.rs:477-486 NSEC3 hash"]}
{"id": "C81", "title": "A proof is not cached longer than its signatures allow", "statement": "The TTL which the builder computes, and which the HTTP server tells caches as max-age, is not more than the cache lifetime the verifier reports for the proof, and a proof obtained at an instant and kept for that TTL is not past the expiration the verifier reports.", "quantifier": "every sequence of responses, every cut into segments, every interleaving of connections, all instants, all signature checks and hash functions", "why_tests_cant": "the TTL comes from a live resolver; a difference shows only with stale or miscounted TTLs or close to expiry", "anchors": ["src/query.rs:151-177 handle_response", "src/query.rs:253-289 ProofBuilder", "src/http.rs:130 Cache-Control", "src/validation.rs:357-402, 531 max_cache_ttl"]}
{"id": "C82", "title": "The verdict does not depend on how the standard library orders equal elements", "statement": "verify_rr_stream sorts the pending non-existence proofs with sort_unstable_by, comparing their names only. Whatever a correct sort does with elements whose names are equal, the verdict (and the result) for an input is the same.", "quantifier": "every input, every signature scheme, every two sorting functions", "why_tests_cant": "a test runs one version of the standard library, whose sort happens to be stable on short slices", "anchors": ["src/validation.rs: nsec_ord_extra, verify_rr_stream ('proof_search_loop, sort_unstable_by, retain)"]}
{"id": "C83", "title": "A record at a wildcard name can be verified like any other", "statement": "A wildcard name is a name of its zone (RFC 4592) and can be looked up. A stream which is acceptable and denies the next closer names of everything synthesised from wildcards is accepted, also when it has records at a wildcard name itself, which is not to be denied as it exists.", "quantifier": "every input, signature scheme, hash and sorting function; every zone, wildcard name and type", "why_tests_cant": "the repository's tests look up only names below wildcards; that the labels field of an RRSIG at a wildcard name leaves out the asterisk shows only for lookups of the wildcard name, and whether they succeed depends on which NSEC records come with them", "anchors": ["src/validation.rs: verify_rr_stream (rrsig.labels != rrsig.name.labels(), rrs_needing_non_existence_proofs)", "src/rr.rs: Name::labels, trailing_n_labels"]}
{"id": "C84", "title": "A revoked key is not relied on", "statement": "A DNSKEY record with the REVOKE flag of RFC 5011 is used for nothing: it neither vouches for the DNSKEY RRset of its zone nor do its signatures make any record verified.", "quantifier": "every input, signature scheme and hash function; every zone reached and every record returned", "why_tests_cant": "no test has a revoked key, and the claim is about all streams an attacker who has the revoked private key can make", "anchors": ["src/validation.rs: verify_rrsig (checks of protocol and flags)", "src/validation.rs: verify_dnskeys (digest over flags)"]}
{"id": "C85", "title": "Adding records to a proof takes nothing away", "statement": "If a stream and the same stream with any records added anywhere are both accepted, every record verified in the first is verified in the second, the answers for a name do not shrink (no CNAME or DNAME record having been added), and the time of use and caching reported for the second is within that of the first.", "quantifier": "every two inputs of which one contains the other, every signature scheme and hash function", "why_tests_cant": "a relation between the verdicts on all pairs of inputs, with adversarial additions", "anchors": ["src/validation.rs: verify_rr_stream, verify_dnskeys, VerifiedRRStream::resolve_name"]}
{"id": "C86", "title": "A zone can replace its keys without its proofs breaking", "statement": "If each RRSIG over the DNSKEY RRset of each zone reached is valid under one of the keys of the zone (as while keys are being replaced, RFC 6781 4.1.2), and the RRSIGs are all valid at one time, an accepted stream is accepted in any other order of its records as well, with the same verified records.", "quantifier": "every input and every order of its records, every signature scheme and hash function, any number of keys and RRSIGs", "why_tests_cant": "all permutations of streams of any length, and key sets of zones in transition, of which no recorded response is an example", "anchors": ["src/validation.rs: verify_dnskeys, verify_rrsig, verify_rr_stream"]}
{"id": "C87", "title": "Every signature relied on meets the rules of RFC 4035 5.3.1", "statement": "Every RRSIG verify_rr_stream relies on names as its signer the zone which contains the RRset, has a labels field not above the number of labels of the owner name, matches in algorithm and key tag a DNSKEY with the Zone Flag at the apex of that zone, and has an inception time before its expiration time.", "quantifier": "every accepted input, every zone reached and every RRSIG of it that counts for the result, every signature scheme and hash function", "why_tests_cant": "signatures with odd fields are only made by attackers or faulty signers; the claim is about all of them", "anchors": ["src/validation.rs: verify_rrsig, verify_dnskeys, verify_rr_stream"]}
{"id": "C88", "title": "Each error of verification has its reason", "statement": "verify_rr_stream returns UnsupportedAlgorithm exactly when a zone come to from the root through zones in order lacks nothing but an implemented digest or signature algorithm, and Invalid exactly when such a zone has any other fault, or all zones are in order and nothing is proven, no time lies within all validity periods, or a wildcard answer is not denied.", "quantifier": "every input, every signature scheme and hash function, with and without debug assertions", "why_tests_cant": "a caller acts on the error (an unsupported zone may be treated as insecure, an invalid one must not); which error is returned depends on every zone of the input and on their order", "anchors": ["src/validation.rs: ValidationError, verify_rrsig, verify_dnskeys, verify_rr_stream"]}
{"id": "C89", "title": "What a zone signed over an RRset as it is on the wire is what is checked", "statement": "The octets of an RRset as the RFCs allow it (names in any case, any TTL, any order, owners expanded from wildcards) are parsed, and verify_rrsig accepts a signature over the parsed records exactly when it is a valid signature of the first fitting key over the octets which RFC 4034 3.1.8.1, 6.2 and 6.3 (as corrected by RFC 6840 5.1) have the zone sign for these records.", "quantifier": "every legal RRset, every RRSIG and list of keys, every signature scheme, with and without debug assertions", "why_tests_cant": "tests have a few signed RRsets of the real world; whether the parsed form keeps all that the signature covers depends on every record type, letter case, splitting of strings, order and wildcard owner", "anchors": ["src/ser.rs: parse_rr_stream", "src/rr.rs: read_from_data, write_u16_len_prefixed_data", "src/validation.rs: verify_rrsig"]}
{"id": "C90", "title": "What can be changed in a stream of records unnoticed", "statement": "A stream of octets is parsed to the same records as a given one which can be parsed exactly when the two differ in nothing but TTLs, the case of letters in names, the cutting of TXT data into strings, the form of type bitmaps, dots within labels, and (without debug assertions) octets after the name in NS, CNAME and DNAME RDATA; and such differences do not change what the verifier says.", "quantifier": "every two streams of octets, every signature scheme and hash function, with and without debug assertions", "why_tests_cant": "whoever relays a proof may change any octet of it; tests change a few, while this is about all pairs of streams", "anchors": ["src/ser.rs: parse_rr_stream, parse_wire_packet_rr, read_wire_packet_name", "src/rr.rs: read_from_data", "wasmpack/src/lib.rs: verify_byte_stream"]}
{"id": "C91", "title": "The verdict on the octets of a proof", "statement": "A stream of records as the RFCs allow them, in any case of letters, is parsed and accepted exactly if the chain of trust from the root holds with the signatures of RFC 4034 over its octets in canonical form and order (and wildcard answers are denied); what is returned are the records proven, with the window and TTL of the signatures used.", "quantifier": "every stream of legal records, every signature scheme and hash function, both build modes", "why_tests_cant": "tests verify a few recorded proofs; this relates the octets of any proof, through parser, sorting and canonical form, to the verdict", "anchors": ["src/ser.rs: parse_rr_stream", "src/validation.rs: verify_rr_stream, verify_rrsig, verify_dnskeys", "src/rr.rs: write_u16_len_prefixed_data"]}
{"id": "C92", "title": "Only what the zones have signed on the wire is returned, whatever else they sign", "statement": "If signatures cannot be forged and digests tell keys apart, then whatever octets a proof consists of, each record returned means RDATA which an honest zone above it has signed, together with the whole of that RRset and for no longer than the zone said; and this also where the zones sign RRsets of types unknown to the library, at names of any octets and in any case of letters, so that none of those signatures can be passed off as one over other records.", "quantifier": "every signature scheme and hash function, every set of zones, keys and signed RRsets, every proof, both build modes", "why_tests_cant": "a test cannot try all octets an attacker may send, nor all RRsets whose signatures they may take for another message", "anchors": ["src/ser.rs: parse_rr_stream", "src/validation.rs: verify_rr_stream, verify_rrsig", "src/rr.rs: write_u16_len_prefixed_data", "src/ser.rs: write_name"]}
{"id": "C93", "title": "From what the zones have signed on the wire to the answer", "statement": "If signatures cannot be forged and digests tell keys apart, then where the honest zones sign RRsets of any type at any names, given as octets: the records which resolve_name returns for a name are reached through aliases which the zones have signed and mean RDATA which they have signed, the RRset complete; so does what the caller of lookup_doh reads in the JSON; and a record taken from a wildcard is accompanied by a signed NSEC or NSEC3 record, and if those are true then its zone has signed nothing at the next closer name.", "quantifier": "every signature scheme and hash function, every set of zones, keys and signed RRsets, every proof or sequence of answers of a resolver, every name, both build modes", "why_tests_cant": "tests run a few recorded proofs; the claim is about every proof an attacker may compose from everything the zones have ever signed", "anchors": ["src/ser.rs: parse_rr_stream", "src/validation.rs: verify_rr_stream, VerifiedRRStream::resolve_name", "wasmpack/src/lib.rs: verify_byte_stream", "wasmpack/doh_lookup.js: lookup_doh"]}
{"id": "C94", "title": "Reading a name looks at a bounded number of octets", "statement": "Whatever a packet holds (chains and loops of compression pointers, pointers into labels), what read_wire_packet_name returns, and how much of the input it consumes, depends on at most 766 octets of the input and the packet besides their lengths; and some packets need as many.", "quantifier": "every input and packet of any length", "why_tests_cant": "a test shows the dependence for a single packet; the bound is over every arrangement of pointers and labels", "anchors": ["src/ser.rs:77-106"]}
{"id": "C95", "title": "What reaches the other side when a socket takes a part only, or fails", "statement": "Whatever pieces a socket takes the answer in, the client gets the answer; if writing fails the client has a beginning of the answer, which is not a whole HTTP message, so that a cut proof is noticed; the resolver gets a beginning of the queries, each of them whole but the last.", "quantifier": "every answer, every sequence of partial and failed writes", "why_tests_cant": "tests write to sockets which take everything at once; the claim is over every sequence of partial writes and failures", "anchors": ["src/http.rs:128-140", "src/query.rs:294-306", "src/query.rs:330-363"]}
{"id": "C96", "title": "The signed octets of an NSEC record mean one record only", "statement": "The data which is hashed for an NSEC record consists of its length, the labels of the next name and the canonical type bitmap, and no other NSEC record which the library can hold has the same octets, so that a signature for one record cannot be used for another.", "quantifier": "every two NSEC records which the library can hold, every next name and every set of types", "why_tests_cant": "the octets collide only for particular sets of types and for next names with empty labels, among all bitmaps of 65536 bits", "anchors": ["src/rr.rs:690-717", "src/ser.rs:39-61", "src/ser.rs:77-134"]}
{"id": "C97", "title": "What a run asks of the crypto library", "statement": "With a log of the questions put to the crypto library, a run of verify_rr_stream visits zones and then searches for denials. In a visit of a zone there is at most one digest for each pair of a DNSKEY and a DS record of the zone, then at most one signature check for the DNSKEY RRset and one for each RRSIG by the zone over something else. There are not more searches than signature checks, with at most 5002 hashes in each. After a signature is refused nothing more is asked and the run fails, so that at most one refused check is ever made. If no zone is visited twice, the signature checks are at most the number of zones visited plus the number of RRSIGs. The product of DNSKEYs and DS records is reached, and zones visited more than once can take exponentially many checks.", "quantifier": "every record stream, every answers of the crypto library, every number of visits", "why_tests_cant": "the cost of the worst record stream is not seen on those which tests choose, and a question whose answer is ignored does not change any result", "anchors": ["src/validation.rs:71-174", "src/validation.rs:177-244", "src/validation.rs:350-533"]}
{"id": "C98", "title": "Reading a message takes linear time", "statement": "With a count of the octets looked at for names, the readers of a proof and of a response give what they gave without it, and the count is bounded. For one name it is at most 766 if the name is read and 1021 if it is refused, however the compression pointers lead, and both are reached. For a response it is at most 766 for each 7 octets of the response; no smaller whole number per 7 octets will do, and a response of at most 65535 octets can have each octet looked at more than 108 times on average. For a proof, where pointers lead nowhere, it is at most the number of octets of the proof. A proof has at most one record for each 11 octets.", "quantifier": "every octet string as name, message, proof or response", "why_tests_cant": "the worst case is a message made for it, with pointers to pointers to a longest name, repeated in each record; tests of well-formed answers see none of it", "anchors": ["src/ser.rs:77-106", "src/ser.rs:136-179", "src/query.rs:123-178"]}
{"id": "C99", "title": "The answers may come in any order", "statement": "For a resolver whose answer depends on the query only: if its answers, coming in in some order, give a proof, then in any other order in which queries can be answered they do so as well. The same queries are sent, the TTL is the same and the proof consists of the same records, though not in the same order. No order gets stuck on the way, over TCP the answers may come back in any order and in any segments, and whether the proof verifies, and to what, does not depend on the order.", "quantifier": "every function from queries to octet strings, every name and type, every order of the answers", "why_tests_cant": "a test fixes one order, that of the resolver it talks to; the number of orders grows with the factorial of the number of queries", "anchors": ["src/query.rs:210-291", "src/query.rs:337-363", "src/query.rs:123-178"]}
{"id": "C100", "title": "What one connection can cost", "statement": "Whatever a client and the resolver send, and with any number of other connections, one connection makes the server send at most 2595 octets in at most ten queries to the resolver, take at most ten messages from it, hold less than 4096 octets of a request or 24428854 of a proof, and write at most 24429035 octets to the client. The 2595 octets can be reached. There is no such bound for all connections together, since nothing limits their number or ends one which waits.", "quantifier": "every interleaving of what arrives from clients and resolvers and of polls, every octet string they send", "why_tests_cant": "the worst case needs a resolver, or whoever answers for it, which picks its signers' names to be the longest and lists just as many as the builder accepts; no test enumerates what it can send", "anchors": ["src/http.rs:47-141", "src/query.rs:195-291", "src/query.rs:295-363"]}
{"id": "C101", "title": "Responses and the queries they answer", "statement": "A proof is finished only if each query handed out has been answered by a response with its question. Of a response only the records have an effect, the order in which responses are given makes no difference but to the order of queries and records, and a response given again asks for nothing more and changes no TTL.", "quantifier": "every sequence of responses given to the builder, every octet string as a response", "why_tests_cant": "the builder's tests answer each query once, with the answer to it; which messages may stand in for others is a statement about pairs of all messages and all states of the builder", "anchors": ["src/query.rs:123-178", "src/query.rs:243-291"]}
{"id": "C102", "title": "The work of reading a request", "statement": "However a client cuts its request into segments, the server compares at most 8386560 pairs of octets with CR LF before it answers or gives up, and at most n(n-1)/2 for n octets sent; a client which sends one octet at a time reaches this, so the work is not linear in the octets sent, while a request which comes in one piece is gone through once.", "quantifier": "every sequence of segments and would-block events", "why_tests_cant": "tests send a request in one or a few segments; the worst of all ways to cut is not among them, and no test counts comparisons", "anchors": ["src/http.rs:53-69"]}
{"id": "C103", "title": "Two clients which ask for the same get the same proof", "statement": "If some order of a resolver's answers gives a proof, and two clients of the HTTP server (of one process or of two) ask for the same name and type, however each writes its request, with these answers reaching the two connections in whatever order and segments, then both get status 200 with the same headers (the same Content-Length and the same max-age) and a body with the same records, and the same queries were sent to the resolver for both. Only the order of the records in the bodies may be different.", "quantifier": "for all resolvers, given as functions from query to answer, all names and types, all request lines which ask for them, all orders in which answers arrive, all ways to cut them into segments, and all interleavings with other connections", "why_tests_cant": "The orders of arrival, the segments and the interleavings with other connections are unbounded, and concurrency hides the rare ones from tests.", "anchors": ["src/http.rs:47-143", "src/query.rs:218-351"]}
{"id": "C104", "title": "The page and the server build the same proof", "statement": "For a resolver which gives the same answers over HTTPS and over TCP, the page (doh_lookup.js with the WASM builder) and the HTTP server (with the library's TCP builder) either both build a proof or both fail; if they do, they ask the same queries and their proofs have the same records, and what the page shows is the outcome of verifying such a proof.", "quantifier": "for all resolvers, given as functions from query to answer, all names and types, all orders in which answers arrive over TCP, all endpoints", "why_tests_cant": "it is a statement about two programs, in two languages, on all behaviours of a resolver; each is tested alone, against one live resolver", "anchors": ["wasmpack/doh_lookup.js: lookup_doh", "wasmpack/src/lib.rs", "src/query.rs:218-351"]}
{"id": "C105", "title": "The page shows what a client of the server verifies", "statement": "If a client of the HTTP server accepts the proof built from a resolver's answers, in whatever order they arrived over TCP, then the page, which gets the same answers over HTTPS and verifies its own proof, shows a JSON text describing the same verified records, validity window and cache TTL. Conversely, if the page shows a result, such a client accepts and verifies the same.", "quantifier": "for all resolvers, given as functions from query to answer, all names and types, all orders in which answers arrive over TCP, all endpoints, all signature and hash functions", "why_tests_cant": "it composes two programs in two languages, the verifier and the JSON writer, over all orders of arrival; tests verify one fixed stream and never compare the two paths", "anchors": ["wasmpack/doh_lookup.js: lookup_doh", "wasmpack/src/lib.rs:76-97", "src/query.rs:218-351", "src/validation.rs: verify_rr_stream"]}
