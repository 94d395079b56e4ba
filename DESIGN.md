# Formal model of dnssec-prover in Rocq (Coq 8.16.1)

## Layout (`rocq/theories`, logical name `Verif`)

| kind | files | content |
|------|-------|---------|
| model | `Base.v`, `*M.v` | executable Gallina functions, one per Rust (or JavaScript) function, each citing file and lines |
| specification | `*Spec.v` | small independent specifications (grammars, RFC algorithms, inductive trust relations, HTTP messages, JSON, base64url) that do not use the model's helpers |
| proofs | `*P.v`, `*P2.v`, ... | lemmas |
| witnesses | `*W.v`, `*W2.v` | concrete inputs for examples and refutations |
| tests | `ShaW.v`, `RepoVecW.v`, `RepoW.v`, `RepoFuzzW.v` | the repository's own unit tests and fuzz cases, run on the model (tests, not proofs; see Trusted base) |
| properties | `Prop_*.v` | only the final theorems (`exact lemma`), their non-vacuity `Example`s, and `Print Assumptions` |

Naming of theorems: `Cnn_...` belongs to property Cnn of `properties.jsonl`. `_partial`: less than the full statement, what is
missing is said next to it. `_refuted`: the negation of a full statement, proved by a witness. `MANIFEST.json` has the status
per property; `seeded/LOG.jsonl` the wrong programs the theorems were tried on.

Only the Coq standard library is used. No axioms, no functors, no module types, no plugins. `Variable` occurs in Sections only.

## Modelling conventions

* A byte is an `N`; every place a Rust integer type bounds a value is an explicit `mod 2^k` in the
  model or a range hypothesis (`is_bytes`, `wf_rr`, `Held`) in the theorem. Rust `str`/`String` = its bytes.
* `outcome E A` = `Ok a | Err e | Panic | Loop`: `Err` is the Rust `Err`, `Panic` an explicit panic
  path (slice index, overflow or `debug_assert!` in debug builds), `Loop` means the fuel given to an
  unbounded Rust loop is exhausted. Theorems say where `Panic`/`Loop` cannot occur, and that more fuel changes nothing (C25, C65).
* `dbg : bool` selects debug (`true`: `debug_assert!` and overflow checks on) or release semantics; C63 compares the two.
* `&mut` parameters are returned. Because every reader error is propagated by `?`, the reader
  position after an error is not observable and not modelled. What a failing call leaves in a `&mut` builder is modelled (C45).
* The outside world is a record `env` passed as an argument (never an axiom): the `ring` signature
  checks (`e_sig`), the `bitcoin_hashes` SHA-1/SHA-256 functions (`e_sha1`, `e_sha256`; the incremental `Hasher` is refined to these in C80), and the (unspecified) order in which `sort_unstable_by` leaves equal elements (`e_sort_needs`).
  Theorems quantify over all `env`.
* cfg: not `test`, not `fuzzing` (so two root anchors, STACK_BUF_LIMIT = 2048), except in `FuzzM.v`, which is about the fuzz targets
  and where the buffer has any limit.

## What is modelled

| code | model | not modelled |
|------|-------|--------------|
| `src/rr.rs` `Name`, `RR`, all record types, `NSecTypeMask`, `key_tag`, `json` | `NameM` `RRM` `OrdM` `JsonM` | `Debug`, derived `Clone`, `From` conversions |
| `src/ser.rs` all functions | `WireM` `RRM` `SerM`, with a count of octets `StepM` | |
| `src/base32.rs` | `Base32M` | |
| `src/validation.rs` all functions | `ValM`, with a log of the crypto calls `TraceM` | crate-private helper types; the text of errors |
| `src/query.rs` `QueryBuf`, `build_query`, `handle_response`, `ProofBuilder`, `build_proof`, `build_proof_async` | `QueryM` (blocking), `ServerM` (asynchronous) | the sockets themselves: a connection is the sequence of segments that arrive and the bytes written |
| `src/http.rs` `run_server` | `HttpM` (one connection), `ReadM` (with a count of comparisons), `ServerM` (accept loop, tasks, scheduling; its writes succeed), `WriteM` (writes which take a part or fail) | `main` (environment variables, bind) |
| `wasmpack/src/lib.rs` | `WasmM` `JsonM` | wasm-bindgen glue |
| `wasmpack/doh_lookup.js` | `DohM` | the engine: `fetch`, `JSON.parse`/`stringify` and the text of a trap are parameters |
| `fuzz/src`, `cfg(fuzzing)` | `FuzzM` | the fuzzing engines |
| `src/crypto` (`hash.rs`) | `HashM` (incremental), `env` | the hash functions and signature checks of the dependencies are parameters |

Further outside the model: memory allocation failure, stack depth of the real recursion (the recursion limit itself is
modelled), time outside `resolve_time`, the RESOLVER's honesty (never assumed except as a named hypothesis in C64-C66).

## Properties and how each is treated

(The full texts are in `properties.jsonl`.)

* C01-C03 names: `name_try_from`, `labels`, `trailing_n_labels` against a spec that builds the text
  from a list of labels (no `split` in the spec). iff theorems.
* C04-C06 wire names: loop on explicit fuel (proved never exhausted), recursion on the 255 limit;
  inductive relation `NameEnc` as spec; iff theorem; round-trip; refutation for empty inner labels.
* C07-C10, C12, C13 codec: `parse_rr`/`write_rr` for all 12 types; grammar relation as spec;
  round-trip by cases; bitmap lemmas by induction over blocks. Refutations: panic on bitmap block
  249..255 with a long length, empty TXT, TXT re-chunking.
* C11 masks; C14 key tag; C15 RSA keys; C16 base32 (bit-level, finite sweeps lifted by lemmas); C17 canonical order.
* C18-C22, C27-C31 verification: inductive relation `Authentic` built from the RFC trust rules;
  invariant over the zone loop; bounded-work theorems by "the result depends on the oracle at <= n
  points". C23-C26, C28, C31, C32: the faithful model violates the property; a
  `_refuted` theorem gives the witness and a `_partial` theorem says what does hold.
* C33-C35 resolve_name: fuelled loop, inductive alias relation; refutations for loops and suffixes.
* C36-C45, C54, C57 query builder: state machine `init/step`, invariants over all histories.
* C46 framing, C47 timestamps, C48-C50 HTTP request handling as a function of the read chunks,
  C51-C52 JSON emitters against an independent JSON grammar, C53, C58 WASM session against the library.
* C55 number of zone visits (exponential family, tight bound), C56 duplicates, C59 unsigned records, C63 debug against release.
* C60-C62 which streams are accepted, exactly; against an independent account of RFC 4035 validation; in a world of honest zones
  only published records are returned.
* C64 liveness: resolver and zones as specifications (`Answers`, `WellSigned`, `Serves`; the resolver may add unsigned records, which C59 drops), the driver's run by invariant, the verifier by C60.
* C65 the DoH lookup by simulation of the library's builder; C66, C67 the server as an event system: an invariant per
  task against the single-connection model, a measure for progress, then C64. C68 the fuzz targets, through C57, C10, C25, C26.
* C69 wildcards in the world of C62, with true denial records: signed messages are unambiguous for NSEC and NSEC3 too; refutations in
  worlds given by tables. C70 composes C62 with C33 and C35: the world's own alias relation.
* C71 composes C64 with C33 and C35: the chain of aliases in the resolver's answer.
* C72 composes C65, C52 and C62: what a reader of the JSON, reformatted by JavaScript, takes for verified.
* C73 composes C21 and C47: a clock, read with RFC 1982 serial numbers, inside the reported window.
* C74 says what the error UnsupportedAlgorithm tells, which its documentation takes for a reason to use the data unverified:
  a DS record of an unimplemented algorithm was published, but not that the zone has no other (UnsupSpec.v).
* C75 applies C60 to two accepted lists and their union (`merged`, MergeSpec.v).
* C76 the two orders of records (`PartialOrd`, `Ord`) against the contract of `core::cmp`.
* C77 which query each response answers (`Rfc9102Spec`), and the order of the chain of RFC 9102.
* C78 the length of the proof buffer against the length of the responses (octet counts over the grammar of C09; windows of bitmaps by counting covered octets).
* C79 what remains of an accepted proof when RRsets are left out (TrimP.v, from C60).
* C80 the incremental `Hasher`: a refinement from the code's `update` calls to the hash functions of `env`.
* C81 composes C54, C67 and C21: the TTL told to caches against the lifetime the verifier reports.
* C82 two environments that differ in `e_sort_needs` only (TieSpec.v): a need met together with another one of the same name and
  zone could have been met alone, so every order of looking finds all denials or fails.
* C83 records at a wildcard name itself (StarSpec.v), from C60's characterisation of acceptance and C24.
* C84 the REVOKE flag of RFC 5011 (RevokeSpec.v): from C18's chain of trust, with a hash collision as the way out.
* C85 two inputs, one contained in the other: from C18, C22 and C60.
* C86 from C60 as C31, with several RRSIGs over a DNSKEY RRset.
* C87 the checklist of RFC 4035 5.3.1 (RulesSpec.v) for the signatures of C60.
* C88 which of the two errors is returned, and why (WhySpec.v, in the terms of C60).
* C89 from the octets of an RRset on the wire to the signature: RFC 4034 6.2 as corrected by RFC 6840 5.1, without the parsed records (CanonSpec.v).
* C90 which streams of octets mean the same records (AlikeSpec.v, with names, strings and bitmaps by their octets).
* C91 from the octets of a whole proof to the verdict: the chain of trust of C60 with the signatures of C89 (WholeSpec.v).
* C92 the security statement of C62 for zones which sign anything: what they sign is given as octets, including types and names which
  the library cannot hold (PubSpec.v). The hypothesis that nothing is forged (`wo_unforged`, SecSpec.v) is only about messages which
  the validator may ask about (`Asked`).
* C93 the statements of C69, C70 and C72 for such zones, from the octets of a proof (or the answers of a resolver) to what is returned.
* C94 the octets which reading a name depends on, as agreement of results (LocalSpec.v).
* C95 partial and failed writes of the server and of the queries, with the messages of C50 (WriteSpec.v).
* C96 which NSEC records have the same octets; `NextSpec.v` has the lists of types for which there is only one.
* C97 what is asked of the crypto library, in order; `TraceM.v` is validation.rs once more, with a log of the questions, and `TraceSpec.v` has the bounds.
* C98 how many octets are looked at for the names of a message; `StepM.v` is the readers of ser.rs and query.rs once more, with a count.
* C99 the answers may come in any order; `ArriveSpec.v` has a run in which any waiting query may be answered next, with the builder of `QueryM.v`. The resolver is a function from the octets of a query to those of its answer.
* C100 what one connection can cost: octets sent to the resolver and taken from it, held, and written to the client, on the server of `ServerM.v`; `CostSpec.v` has the five constants and what a task holds.
* C101 responses and the queries they answer: `MatchSpec.v` has the question of a message. Refuted that each query gets its answer; proved that only the records of a response matter, and what giving one again does.
* C102 the work of reading a request: `ReadM.v` is `read_req` with a count of comparisons, shown to return the same; bound by induction over the events, reached by a client sending single octets.
* C103 two clients which ask for the same: C99 (any order of answers) over TCP, put together with C67 (what a connection writes depends only on what reaches it) and its progress theorem.
* C104 the page and the server: the page answers the builder's queries in turn, which is one of the orders of C99; forth by C99's progress, back by counting (as many accepted as handed out).
* C105 the page and a client of the server: C104 and C99 give each order of the answers the client's verdict; one bound on the verifier's rounds serves all orders, since there are finitely many; C51 gives the JSON text. Conversely a text describing a result is none of the page's error texts (their first key is "error"), so it is that of a verified proof. Without DNSKEYs and their RRSIGs in one answer both are refuted, with C99's resolver and one which has the signatures the other way round.

## Trusted base

* Coq's kernel (with `vm_compute` for the examples).
* `Print Assumptions` under every theorem: "Closed under the global context" for each of them. (The gate also lists seven constants of
  `Coq.ssr.ssrunder`, parameters of the standard library's own sealed modules, loaded with `Lia`; no theorem depends on them.)
* The fidelity of the model to the cited lines: the code was read, not run. Behaviour of `std` is modelled where it is used
  (`split`, `sort`, `dedup`, `read_exact`, `to_ascii_uppercase`, `from_utf8`, `copy_from_slice`, ...), as documented.
  As a check of it, `RepoW.v` runs every unit test of the repository which needs no network on the model while it is compiled
  (`Check (eq_refl <: test = true)`, which leaves nothing behind in the library), on the real records, with SHA-1 and SHA-256
  written out in `ShaW.v`. Signatures are checked by `tests/vectors.py` (RSA, ECDSA P-256), which reads the vectors from the source
  text, works out the signed octets from RFC 4034 with its own code, and generates `RepoVecW.v`; the model accepts a signature only
  over exactly those octets with that key.
* The specifications say what they should.
