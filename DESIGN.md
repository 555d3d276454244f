# Formal model of spruceid/openid4vp in Rocq

## Layout

`rocq/theories/` holds, in dependency order (`rocq/_CoqProject` lists the files):

| layer | files |
|---|---|
| data | `Base.v` (result type, text), `Utf8.v`, `Json.v`, `JsonText.v` (printer/parser), `JsonPretty.v`, `Base64.v`, `UrlEncoded.v`, `Url.v`, `Sha256.v`, `Cbor.v`, `Serde.v` |
| library model | `Object.v`, `Formats.v`, `Params.v`, `Metadata.v`, `Dcql.v`, `DcqlEdit.v`, `Effects.v`, `Jwt.v`, `Request.v`, `Verify.v`, `Did.v`, `X509.v`, `Response.v`, `Jwe.v`, `Iso.v`, `Wallet.v`, `Reqwest.v`, `Session.v`, `Client.v`, `Signer.v`, `Builder.v`, `Server.v` (all verifier entry points, interleaved), `AnyStore.v` (the same with any session store), `StatusJson.v` |
| example programs | `ExMatcher.v`, `ExWallet.v`, `ExHttp.v`, `ExShipped.v`, `P256.v` (the holder's key), `ExMetadata.v` (wallet-conformance-adapter), `ExVerifier.v`, `ExWeb.v`, `ExCache.v`, `ExStart.v` (verifier-conformance-adapter), `ExCli.v`, `ExConsole.v`, `ExCliWeb.v`, `ExPrint.v` (cli-verifier) |
| specification | `Spec*.v`: the vocabulary of the theorem statements, written without the model's helpers |
| lemmas | `*Facts.v` |
| checks of the model | `RepoTests.v`, `RepoIso.v`, `RepoFlow.v`: the tests of `/repo` |
| proofs | `Pf*.v` |
| theorems | `P*.v` (one per `Pf*.v`): only theorem statements closed by `exact`, each followed by `Print Assumptions` and by an `Example` showing that a concrete case meets its hypotheses |

Model files contain definitions only. Each definition cites the lines of `/repo` it models. A theorem is named
after its property: `c42_roundtrip` belongs to C42. `_refuted` theorems exhibit a case in which the code, as
modelled, violates the expectation stated in the comment above; they are the findings listed below.
`MANIFEST.json` maps properties to theorems; `seeded/LOG.jsonl` records the wrong programs the theorems were
tested against.

## Modelling decisions

* Text and byte strings are Coq `string`s (sequences of 8-bit characters). This is a superset of Rust's
  UTF-8 `String`; where the UTF-8 invariant matters (JSON text, `from_utf8`, form decoding) it is an explicit
  predicate `utf8_valid`.
* `Result` is `res A := Ok a | Err tag`. Error tags identify the failing check; they are not the full message.
  A panic is the distinct tag `panic` (empty certificate chains).
* `serde_json::Value` is an inductive type; objects are association lists kept sorted by key without duplicates
  (`BTreeMap`, the default `Map`). Integers are `Z` in `[-2^63, 2^64)`; other numbers are kept as the lexeme they
  were written with (no `f64` arithmetic).
* `serde_json` text: printer and recursive-descent parser are concrete, with the recursion limit of 128,
  `\u` escapes and surrogates, UTF-8 checks and last-wins duplicate keys.
* Derived `Deserialize` implementations follow serde: unknown members ignored, structs may also be given as
  arrays, missing `Option` members are `None`, untagged enums try their variants in order.
* A `HashMap` is a list with distinct keys in iteration order; theorems quantify over that order.
* Base64 (three engines), form-urlencoding, UTF-8 (strict and lossy), SHA-256 and the CBOR subset are concrete
  definitions, so statements about them carry no assumption. SHA-256 is checked against the FIPS 180 vectors in
  `Sha256Facts.v`.
* URLs are records (scheme, authority, path, query, fragment) printed concretely. Parsing (`Url::parse`) is an
  arbitrary function; where a round trip is needed the theorem carries the hypothesis that parsing the printed
  form of the URL at hand gives it back. `simple_parse` witnesses that these hypotheses can be met, and `WebUrl.v`
  has the parser of the URL standard (all schemes but "file"; reading a domain name and an IPv6 address are
  parameters), for which C112 proves them for every URL that can arise. `HttpUri.v` likewise has the test `http::Uri`
  applies, for which C113 says exactly which web URLs can be sent to, and `WebJoin.v` has `Url::join` for web URLs (C114).
  `WebHost.v` has the hosts: IPv6 and IPv4 addresses and ASCII names; only names with international labels are left to
  a parameter, with the contract `idna_ok` (C115).
* Effects (HTTP requests, hook invocations, validator invocations) are recorded in a trace, so that statements
  about "how many requests are sent" or "which hook ran, when" are statements about the trace.
* `async` functions are sequential programs. The verifier's entry points are programs (`prog`) whose only atomic
  actions are the operations of the session store and the call of the caller's validator (`Session.v`,
  `Builder.v`). `run` runs one alone; `Server.v` interleaves any number of them arbitrarily, lets `try_lock` fail
  at any store operation, lets the validator return anything, and lets any call be dropped between two actions. `AnyStore.v` replaces the memory
  store by an arbitrary implementation of the trait: a relation between states for each method.
* Arbitrary functions, universally quantified in every theorem (section variables discharged at the end of the
  section, never axioms): `Url::parse` and `Url::join`, HTTP behaviour, verification hooks, the DID resolver, the
  JWS signature primitives, `x509_cert`'s DER coding, josekit's JWK check, JWE encryption and decryption,
  `http::Uri`'s acceptance of a URL, ssi's acceptance of a JWS header, Unicode lower-casing, signing keys, the
  clock, random numbers and UUIDs. The certificate cache runs on a file system whose writes may be split and cut anywhere.

Simplifications, also stated in the comments of the definitions concerned:

* ssi's JWS header check is an arbitrary function of the *normalised* header object; the real one also rejects
  duplicate header members. Every wallet run reads the header of one JWT only and every theorem quantifies over the check, so a run of the real
  check is covered by the constant function with its answer.
* Values that the code re-reads right after writing them are decoded by a parser of the four kinds of CBOR items it writes;
  handovers and transcripts from outside go through a stream reader as ciborium documents it (tags, indefinite lengths, big integers).
* Non-integer numbers in JSON are opaque: read and written as they stand, which is what serde_json does with its feature `arbitrary_precision`. Without
  it such a number becomes an `f64`, may be written differently (`1.10` as `1.1`), and is refused if out of range. C120 proves for every such
  conversion (`JsonNumber.v`) that readers and the wallet's decisions do not depend on it. Nothing the library itself writes contains such a number.
* The examples are built with serde_json's `preserve_order` (a dev-dependency; any program can switch it on for the whole build), so
  objects then list their members in insertion order; the model lists them sorted. C119 proves that the readers, the wallet's decisions and
  the encrypted answers do not depend on that order (`JsonOrder.v`), with one exception, `c119_designation_refuted`.
* `HashMap` iteration order is a parameter, not a hash function.
* HTTP redirects followed by reqwest are inside the `http` function, except in `Reqwest.v` (C111), which models that function for the
  library's own client as reqwest 0.12 documents its default policy.
* Error message texts and `Display` implementations of errors are not modelled. Of the logs, the lines the handlers of the two conformance examples write
  are (`ExLog.v`), and the library's own (`LibLog.v`; what `{:?}` makes of external types is arbitrary): not those of `TraceLayer` or of starting up. That `with_max_level` replaces an earlier filter is tracing-subscriber's
  documented behaviour.

## What is modelled and what is not

Modelled: all of `/repo/src` except the items below, `openid4vp-frontend`'s `Status`/`Outcome`, the request
handling of the three examples.

Not modelled: the implementations inside external crates (crypto primitives, X.509 parsing, `url`, `http`,
`reqwest` (but for its default redirects, `Reqwest.v`), `josekit`, `ssi`, `tokio`; only their contracts as listed above), `P256Signer`'s arithmetic (`sg_sign` is arbitrary), `Debug`/`Display`/error texts,
certificate generation (its result is arbitrary), command line parsing, QR codes, banners and the layout of what the examples print. axum's
routing and extractors are modelled in `ExHttp.v`, `ExWeb.v` and `ExCliWeb.v` as documented for axum 0.7 and tower-http 0.6: method routing, `Query`,
`Form`, `Path`, `String`, `Json` (what is JSON of the right shape is arbitrary), CORS, the body limit and the timeout.

As a check of the model against the code's own expectations, `RepoTests.v`, `RepoIso.v` and `RepoFlow.v` run the unit tests and the end-to-end test of `/repo` on it (same
inputs, same expected results, among them the vectors of OpenID4VP 1.0 §B.2.6). They are tests, not proofs, and no claim rests on
them. Left out are three tests with nothing to compute (`session_transcript_structure`, `request_uri_method_default_is_get`,
`debug` of `util`).

## Plan per property

Every property is expressed in the model; none had to be left out.

| id | model | theorem |
|---|---|---|
| C01 C02 | `Object.v` | map and frame laws by induction; any sequence of operations refines a finite map |
| C03 | `Params.v` `Metadata.v` `Dcql.v` `Response.v` | decode (encode v) = v for every parameter |
| C04 C05 | `Params.v` | characterisation by string decomposition |
| C06–C09 | `Request.v` | iff with the independent predicate `acceptable`; round trip; refuted coherence after mutation |
| C10–C12 C69 | `UrlEncoded.v` `Request.v` | specification over the decoded pairs; round trip; refuted confusion |
| C13–C17 | `Request.v` | trace theorems over arbitrary HTTP behaviour |
| C18–C22 | `Verify.v` | trace theorems over arbitrary hooks; acceptance iff |
| C23 C24 C28 | `Did.v` | soundness and completeness (iff); bypass; rejection |
| C25 C26 | `X509.v` (the extensions of a certificate and the names in them are data; decoding DER is an oracle) | iff, with the DNS names of a certificate specified in `SpecCert.v`; independence of the roots |
| C27 C70 | `Client.v` `Wallet.v` | composition of client, resolution and verification |
| C29–C33 | `Builder.v` | inversion of the builder, composition with `Request.v` |
| C34 C35 C40 C41 | `Session.v` | refinement to a map; order laws |
| C36–C40 | `Server.v` | invariants over all interleavings; refuted monotonicity with exact characterisation of the race |
| C42–C44 C71 | `Response.v` | round trip for any order of entries; injectivity; precedence |
| C45 C46 | `Wallet.v` | trace theorems |
| C47–C50 | `Jwe.v` | first-match specification, plaintext contents, refuted implications |
| C51–C55 | `Iso.v` `Cbor.v` `Sha256.v` | exact bytes, injectivity, collision reduction |
| C56–C59 | `Dcql.v` | round trip, accessors, invariant |
| C60–C63 | `Metadata.v` `Formats.v` | round trip, accumulation |
| C64 | `Params.v` | all random streams; uniformity; equally long texts have equally many word streams |
| C65 C66 | `JsonText.v` `Base64.v` `Client.v` | round trips, canonicity |
| C67 C68 C72–C75 | `ExMatcher.v` `ExWallet.v` | soundness for all stores, requests and servers |
| C76–C78 | `ExVerifier.v` | simulation by the library's server (`Server.v`), so every interleaving; inversion of the handlers |
| C79 | `ExWallet.v`, `ExVerifier.v` | composition: initiating (C77), conveying and resolving (C32), matching (C67), encryption (C73), reading back (C42), verdict (C76) |
| C80 | `ExCli.v` | inversion of the request builder (C29) and of the example wallet (C68); length argument for the mismatch |
| C81 | `ExCli.v` | inversion of the loop over the types, by induction |
| C82 | `ExCli.v` | inversion of the handler with C40 |
| C83 | `Client.v` | inversion of the constructors and of the JWT construction; base64 and JSON round trips |
| C84 | `Builder.v` | induction over the sequence of builder calls; inversion of the request builder (C29) |
| C85 | `Wallet.v` | composition of reading the URL (C11), resolving (C13–C17) and verifying (C18–C22), in both directions |
| C86 | `Builder.v`, `Client.v`, `Wallet.v`, `Session.v` | composition: building (C29), conveying and resolving (C32), verifying (C19, C27), submitting (C45), reading (C42), judging (C40) |
| C87 | `Dcql.v`, `Serde.v` | equivalence of the reader with the relations of `SpecDcql.v`, structure by structure |
| C88 | `Server.v` | refinement: the store is the replay of the log, by induction on the execution |
| C89 | `Server.v` | decreasing measure over the calls in flight; enabledness of every program |
| C90 | `Server.v` | simulation of executions with dropped calls by executions without |
| C91 | `Sha256.v` | equivalence with a bitwise, recurrence-based description of FIPS 180-4 (`SpecSha.v`); uniqueness of the digest |
| C92 | `ExMetadata.v` `ExWallet.v` `Builder.v` | exact members; reading back through the text; composition with C33 and C73; refuted agreement |
| C93 | `StatusJson.v` `JsonText.v` | iff with a declarative relation; round trip with exact depth bound |
| C94 | `ExVerifier.v` `Server.v` | simulation by the library's server (C88, C89, C38); program traces for freshness; measure; refuted monotonicity |
| C95 | `JsonText.v` `Utf8.v` | inductive grammar of RFC 8259 and RFC 3629 independent of the parser; iff by induction on fuel and on derivations |
| C96 | `UrlEncoded.v` `Utf8.v` | inductive form grammar and maximal-subpart repair independent of the decoder; iff |
| C97 | `Base64.v` | bits in groups of six by RFC 4648; iff for reader and writer |
| C98 | `Params.v` `Object.v` `Formats.v` `Response.v` | relation between JSON and typed values per parameter, independent of the deserialisers; iff (maps up to entry order) |
| C99 | `Client.v` `Metadata.v` `ExCli.v` | panicking paths are a distinct error; iff for the library, absence by induction over the types |
| C100 | `ExConsole.v` `ExCli.v` `Session.v` | transition system over store, display, notification and log; invariant over what remains of each request; single-request runs by inversion; refutations by explicit executions |
| C101 | `ExCache.v` `JsonPretty.v` `JsonText.v` | transition system over files with partial writes and stops at any point; invariants over what files hold; no proper prefix of the file and no overwritten tail is read as JSON; refutations by explicit histories |
| C102 | `ExHttp.v` `ExWallet.v` | case analysis linking every reply to the wallet's run and to what was posted; exact reading of forms; refutation by an explicit run |
| C103 | `ExHttp.v` `ExMetadata.v` | two-run comparison: selection, submission and encryption go the same way for stores that look alike |
| C104 | `ExShipped.v` `ExHttp.v` `ExWallet.v` | iff for the file by induction over its entries; the shipped store's answers from C67 and C102; disclosures by string decomposition; refutations by explicit runs |
| C105 | `ExWeb.v` `ExVerifier.v` | exact routing by classification of paths; simulation of the web server by the handlers of C76-C94; a set of possible operations kept by every step; refutations for all sessions |
| C106 | `Signer.v` `Client.v` `Did.v` `X509.v` | what is printed is read back by the text laws; acceptance from C27; the refusals from the exact readings of C26 and by an explicit DID document |
| C107 | `ExStart.v` `ExVerifier.v` `Signer.v` | inversion of the start; a derivation in the JSON grammar (C95) for every printed text; C77, C106 for the requests; refutations by explicit starts |
| C108 | `DcqlEdit.v` `Dcql.v` `Response.v` | induction over the sequence of calls; C56 for the receiver |
| C109 | `ExCliWeb.v` `ExWeb.v` `ExConsole.v` `ExCli.v` | routes by cases on the path; every execution simulates one without HTTP (C100), the records are translated back; C80 for the endpoints; an explicit execution for the refutation |
| C110 | `P256.v` `ExShipped.v` `ExWallet.v` `ExHttp.v` | the multiple of the base point is checked step by step from given slopes, by a checker proved against the chord and tangent rule; with C74 for every presentation; digests by computation |
| C111 | `Reqwest.v` `Wallet.v` `Request.v` `Verify.v` `ExWallet.v` | induction over the redirects still allowed gives a chain of requests; bodies by induction over the chain; with C13 and C45 for the wallet; an explicit network for the refutation |
| C112 | `WebUrl.v` `Url.v` `Builder.v` `Metadata.v` `ExVerifier.v` `ExWallet.v` | the parser of the standard as a function, proved equivalent to a relation that describes each component; each component comes out in, and is kept in, its normal form, by sweeps over the 256 characters and induction over text and segments; extending a normal URL keeps it normal; C60 and C79 instantiated |
| C113 | `HttpUri.v` `WebUrl.v` `Request.v` `Wallet.v` `ExVerifier.v` `ExWallet.v` | the scanner of authorities run over user information, host and port of a normal URL; paths and queries by sweeps over the 256 characters; lengths of session URLs; C13, C45 and C112 instantiated |
| C114 | `WebJoin.v` `WebUrl.v` `HttpUri.v` `Reqwest.v` `Request.v` `Wallet.v` | resolution as a function, proved equivalent to a relation by cases on scheme and slashes; normal form as in C112; induction over the chain of C111, with C13 and C45 for the wallet |
| C115 | `WebHost.v` `WebUrl.v` `HttpUri.v` `ExStart.v` `ExCache.v` | the loop over the pieces of an IPv6 address by induction on its fuel, equivalent to a grammar; printing by the best run of zeros so far as loop invariant, and uniqueness of shortest numerals; IPv4 parts and labels by splitting and joining at dots; the contract of C112 to C114 follows, and with it their theorems for these hosts |
| C116 | `AnyStore.v` `Session.v` `Builder.v` `Server.v` | the protocol of each program by cases, kept along every execution with numbered calls; simulation of any faithful store by the memory store, with an expiry simulated by a removal; for stores that invent nothing an invariant on the source of everything they may show |
| C117 | `AnyStore.v` `Verify.v` `X509.v` `Did.v` `Wallet.v` `Jwe.v` `Builder.v` | composition of C116, C70, C32, C45 and C49: a finite history either contains the signed header and payload or not; if it does, the same text reads as the same request object, otherwise the JWT is the forgery |
| C118 | `ExPrint.v` `ExCliWeb.v` `ExConsole.v` `JsonPretty.v` `JsonText.v` | invariant that every shown outcome comes from the validator; indented JSON writes no character below space but line ends, each followed by an indentation or the closing brace, by induction over what is printed; composition with C109 and with the round trip of indented JSON (`PrettyFacts.v`) |
| C119 | `JsonOrder.v` `Json.v` `JsonText.v` `Serde.v` `Formats.v` `Params.v` `Dcql.v` `Request.v` `Metadata.v` `Verify.v` `Jwe.v` `Response.v` `ExMatcher.v` | the relation "same but for the order of members" (`SpecOrder.v`) is kept by both kinds of map; every reader maps related values to related results, by a relational lemma for each combinator of `Serde.v`, composed along the code |
| C120 | `JsonNumber.v` `JsonText.v` `Serde.v` `Request.v` `Metadata.v` `Verify.v` `Dcql.v` `Response.v` `ExMatcher.v` | as C119, the relation of `SpecOrder.v` being relative to a relation between number texts (`LikeFacts.v`); conversion and normalisation commute up to it |
| C121 | `Request.v` `Verify.v` `Did.v` `X509.v` `ExWallet.v` | two runs side by side: every function reads named members only; a relation on traces kept by every step |
| C122 | `Server.v` `Session.v` `Builder.v` | linearizability: what is left of each call in flight is one of five stages; its last store operation does to the store what the whole call executed alone does; permutation of answers by induction over executions; counterexample without the last condition |
| C123 | `ExVerifier.v` `Server.v` `Session.v` | C122's stages carried over to the handlers, which follow the library's calls; permutation of HTTP answers by induction over executions; counterexample without the last condition |
| C124 | `Metadata.v` `Verify.v` `Did.v` `X509.v` `Builder.v` `ExMatcher.v` | monotonicity: the exact acceptance conditions of C21, C23, C25, C26, C67 and C85 carried from one configuration to the larger one; counterexample for a first list |
| C125 | `AnyStore.v` `Server.v` `Session.v` | each successful operation of a faithful store is one of the memory store (simulation), so C122's stages carry over with call numbers; expiries become removals; counterexample for late marks as in C122 |
| C126 | `RandomId.v` `AnyStore.v` | bit by bit: the six overwritten bits; exchange of words by exclusive or; counting by fibres and induction on the number of draws (birthday bound), stated as bounds on duplicate-free lists of words |
| C127 | `ExVerifier.v` `RandomId.v` | two-run argument: joint execution compared step by step with the executions of each party alone (each program depends on the session it names only), then C126's count of guesses; the parties' moves are shown to be exactly the steps of the server |
| C128 | `Builder.v` `Request.v` `ExVerifier.v` | two executions compared through the exact URL of C29 and C77; form encoding at most triples a text and is injective |
| C129 | `ExVerifier.v` `Session.v` | the store after any sequence of answered requests is characterised by the set of requests alone (induction over the sequence), two sorted stores with the same contents are equal; concurrent executions through C123's arrangement |
| C130 | `ExVerifier.v` `ExWallet.v` `RandomId.v` | simulation of the party's turns alone by served-in-turn executions (induction over the history, at most three actions per request), then C127's two-run argument removes the others; composed with C79 |
| C131 | `Request.v` `Verify.v` `Builder.v` `ExWallet.v` | the by-reference run of `resolve_request` is rewritten to one GET event followed by the by-value run; everything after it is the same continuation; the builder's session does not depend on the way of passing; composed with the URL round trip of C12 |
| C132 | `ExWallet.v` `Jwe.v` `Wallet.v` | header and key of every JWE are functions of the request alone; both runs then have the same continuation on the ciphertext, so equal ciphertexts give equal runs (reduction: a difference exhibits two unequal ciphertexts); plain answers refuted by a witness |
| C133 | `Server.v` `ExVerifier.v` | the store is the fold of the history (C88, C94); presence follows the initiate and remove events, then counting of duplicate-free lists; the example's handlers contain no removal (structural invariant of the programs in flight); unbounded growth by induction on the number of presentations, with C77 for each start |
| C134 | `ExWallet.v` | the matcher is a `find` per credential query (induction on the queries, with monotonicity of `find` under `incl` and its stability under appending); then the whole run of the wallet up to delivery; the selection characterised by id through the multiset of what each id was given; a two-line witness for the query that is refused when it asks for less |
| C135 | `Request.v` `Response.v` `ExWallet.v` `ExHttp.v` | the readers depend on the fields only through the values per name (extensionality of sorted maps for direct requests), and the fields are those of the URL standard's grammar (C96); reading distributes over joining queries with an ampersand |
| C136 | `JsonText.v` `UrlEncoded.v` `Utf8.v` `Base64.v` `Request.v` `Response.v` `ExMatcher.v` | induction on the fuel of the parsers with the length of the rest; printing by induction on the value with the decimal length of 64-bit integers; the repair of UTF-8 by induction with the pending bytes; the amplification by a family of queries indexed by n |
| C137 | `ExLog.v` `ExVerifier.v` | the server with its log as a transition system over that of C76; a simulation between the run and the run with other presentations, request by request; invariants over all reachable states relating the log to the store, the programs in progress and the answers |
| C138 | `ExLog.v` `ExWallet.v` `ExMatcher.v` | the lines as a function of the request, the store and the network, related to the wallet's run of C68 case by case; the matcher's choices depend on everything but the texts, and the shape of the token on the ids only |
| C139 | `ExConsole.v` `ExCli.v` | handlers follow a call of the library with console actions in between; the case analysis of C122 on what is left of a call; induction over executions; the overlap as a counterexample |
| C140 | `LibLog.v` `Jwe.v` `X509.v` `Request.v` | the entries as functions beside those of C47, C49, C26, C25, C09 and C28; induction over the keys and over the certificate's names; a header with a chosen `typ` for the forged line |
| C141 | `LibLogRun.v` `LibLog.v` `Verify.v` `ExWallet.v` | the entries of C140 put together along `validate` and the example wallet's handler; case analysis of both runs; C27's round trip of headers for the library's own clients; C138's comparison of stores |

## Findings

Places where the code, as modelled, does not do what a user may expect. Each has a theorem (mostly `_refuted`).

* C07 `c07_placeholder_refuted`: in the dc_api modes the return URI is the constant `https://example.com`.
* C09 `c09_stale_refuted`: inserting a parameter through the map view leaves the typed accessors unchanged.
* C11 `c11_scheme_ignored`: `from_url` does not compare the scheme.
* C12 `c12_confusion_refuted`: a direct request with a member `request` comes back as a request by value;
  numbers and booleans come back as text; `to_url` discards the endpoint's own query.
* C14 `c14_bypass_refuted`: an outer `redirect_uri:` client_id switches off the `typ` check even if the request
  object has another client_id, or none.
* C16 `c16_late_refuted`: outer and inner client_id are compared only after the hook has run.
  `c16_missing_inner_refuted`: a request object without client_id is accepted for any outer client_id, through
  the pre-registered hook.
* C18 `c18_preregistered_refuted`: a wallet that lists only `x509_hash` still runs the pre-registered hook for an
  identifier without a colon. An identifier `pre-registered:…` goes to the catch-all hook.
* C24 `c24_none_bypass`: with an algorithm name containing `none` on the wallet's list, DID verification accepts
  anything, including DIDs that are not on the trust list.
* C25 C26 `c25_roots`: the trusted roots have no effect. An empty certificate chain panics in both X.509 clients.
* C28 `c28_fragments`: DID client and DID verification disagree on verification methods with two `#`.
* C29 `c29_reuse_refuted`: building twice with one session id silently replaces the session and its progress; a
  validation of the old session can then complete the new one. `build_dc_api` does not look at wallet prefixes.
* C31: an endpoint path ending in `/` gets a double slash before the session id.
* C38 `c38_race_refuted`: a retrieve racing with a response puts a completed session back to "sent". By `c122_late_refuted` no order of the calls executed one at a time explains the resulting store; apart from this race (and from reuse of ids and validators that look at the status) the calls are linearizable.
* C42 `c42_deep_refuted`: presentations nested more than 125 levels are sent but cannot be read back.
* C44 C71: the form encoding prefers `response`, the JSON encoding prefers `vp_token`.
* C50 `c50_unencryptable_refuted`, `c50_enc_refuted`, `c50_refused_refuted`: validation and encryption use
  different criteria for keys (`use` missing, curve) and for enc values (any match validated, first one used).
* C53 `c53_empty_refuted`: an empty array of indefinite length followed by a handover is read as a session transcript: the three-element
  visitor does not remember that the array has ended, and the handover is read from behind it.
* C54 `c54_quotes_refuted`: thumbprint text is not escaped, so members containing quotes can collide; OKP keys
  have no thumbprint.
* C55 `c55_differ_refuted`: the thumbprint in the session transcript can be that of another key than the one used
  for encryption.
* C59 `c59_default_refuted`: `NonEmptyVec::default()` is empty.
* C60 `c60_stale_refuted`: `vp_formats_supported_mut` leaves the raw view stale. The doc comment of
  `openid4vp_scheme_static` does not match the metadata it builds (`c60_static`).
* C63 `c63_map_lossy_refuted`, `c63_claim_format_lossy_refuted`: a format map with both `MsoMDoc` and
  `Other("mso_mdoc")` loses an entry; reading a `ClaimFormat` drops unknown members.
* C67 `c67_claims_refuted`, `c67_sets_refuted`: the example wallet ignores claims when `vct_values` or a doctype
  is given, and ignores credential sets.
* C68 `c68_unverified_refuted`: the example wallet answers requests of all other client identifier prefixes
  without verifying a signature or the client_id.
* C69 C75: requests given directly in the query can never carry client metadata or a DCQL query the library reads.
* C73 `c73_unlisted_refuted`: the example wallet encrypts with A128GCM also for a client that lists only other
  enc values.
* C76 `c76_unchecked_refuted`: the example verifier checks nothing about a response (signature, nonce, state, query,
  encryption): `vp_token={}` POSTed to any session completes it with success, also in the encrypted mode. Its
  validator never returns `Failure`.
* C77: a nonce given by the caller of `/initiate` is used as it is, also an empty or a repeated one. `Url::join`
  drops the last segment of a public URL that does not end in a slash.
* C78 `c78_status_url_refuted`: `status_url` contains `//status/` when the public URL ends in a slash (every URL
  without a path does), and no route answers it.
* C80 `c80_unanswered`: the command line verifier's client_id is `redirect_uri:<public>/response`, but the response_uri
  of every request is `<public>/response/<session>`; a wallet that requires them to agree (the example wallet) never answers.
* C81 `c81_ids_refuted`: repeated or overlapping credential types give a query with an identifier used twice.
* C82: the command line verifier reports success for every `vp_token`, also an empty one.
* C84 `c84_dropped`: `with_default_request_parameter` and `with_request_parameter` ignore a failed conversion to JSON, so
  such a parameter is silently missing from the request.
* C92 `c92_enc_refuted`, `c92_prefix_refuted`: the example wallet announces only `A256GCM` and only `redirect_uri` clients, but
  encrypts with `A128GCM` always and answers other clients.
* C94 `c94_regress_refuted`: the example verifier's status endpoint can report success and later `sent_request` for the same
  session, when the request object is fetched twice and the slower fetch ends after the response.
* C123 `c123_late_refuted`: in that race no order of the HTTP requests, served one at a time, explains the sessions left; apart from it (and from reuse of ids) the requests are linearizable.
* C100 `c100_lost_refuted`: the command line verifier can end without ever printing the verdict: another request overwrites the
  shared display between the verdict being set and being read back for printing.
* C100 `c100_unstored_refuted`: it can print SUCCESS and end although storing the outcome failed (the store is busy) and the
  wallet was answered with 500.
* C100 `c100_stranger_refuted`: a POST for any identifier makes it print and keep "PROCESSING RESPONSE".
* C101 `c101_evict_refuted`: the example verifier's certificate cache maps `a.b` and `a_b` to one file, so the two domains evict each
  other's certificate.
* C101 `c101_mixed_refuted`: two example verifiers started together for one domain, one stopped in the middle of a write, can leave a
  cache file that pairs one's certificate with the other's key; it is used without checking that they belong together.
* C102 `c102_timeout_refuted`: the example wallet's 30 s timeout answers 408 although the presentation may have been delivered and
  accepted; and HEAD on the authorization endpoint presents credentials (`c102_head`).
* C104 `c104_minimal_refuted`: the example wallet ignores the claims selected by a query and always sends every disclosure of the
  credential.
* C104 `c104_endpoint_refuted`: with a public URL that ends in a slash (`PUBLIC_URL=https://w.example/`) the example wallet announces
  `https://w.example//authorize`, which its router answers with 404.
* C105 `c105_head_refuted`: HEAD on the example verifier's request endpoint marks the request object as sent to the wallet although
  none is sent; `c105_timeout_refuted`: a response answered with 408 may have been accepted and recorded as a success.
* C106 `c106_annotated_refuted`: `DIDClient::new` compares whole JWKs, so a DID document whose JWK holds the signer's key and also
  names `alg`, `kid` or `use` is refused; `c106_mismatch`: X.509 clients are made without comparing the certificate's key with the
  signer's, and then no wallet accepts their requests.
* C107 `c107_mode_refuted`: a misspelt response mode (`direct_post_jwt`) is printed as given and silently means plain responses;
  `c107_endpoints_refuted`: with a path in the public URL the example verifier prints endpoints that it does not serve and that
  differ from those it tells wallets.
* C108 `c108_claim_sets_refuted`: a credential query can be given claim sets without claims, against its own documentation; receivers
  accept it.
* C109 `c109_head_refuted`: a HEAD request makes the command line verifier say that the wallet has fetched the request, though none was sent.
* C110 `c110_credential_refuted`: no presentation of the shipped wallet can pass SD-JWT verification: the issuer signature is a
  placeholder, and `_sd` lists placeholders instead of the digests of the disclosures.
* C111 `c111_elsewhere_refuted`: `ReqwestClient` keeps reqwest's default redirect policy, so a response_uri that answers 307 or 308 has the
  wallet repeat the POST with the VP token to any other host, also over plain HTTP.
* C117 `c117_san_refuted`: an x509_san_dns client identifier binds a request to nobody: any self-issued certificate with the verifier's DNS name in
  it is accepted, whatever trusted roots the wallet passes (they are ignored, see C26).
* C118 `c118_control_refuted`: the command line verifier prints posted query identifiers with control characters beyond ASCII unescaped, so a
  stranger can send its terminal commands (U+009B, for terminals that honour it).
* C119 `c119_designation_refuted`: the designation of an unknown claim format is its first member name, which depends on whether any crate of the
  program switches on serde_json's `preserve_order`.
* C120 `c120_rewritten_refuted`: an object presented as a credential is not passed on as it was written: non-integer numbers are read as `f64`.
* C121 `c121_expired_refuted`: the dates and the audience of a signed request object (`exp`, `nbf`, `iat`, `aud`) are never looked at: a request
  stays valid for ever and for every wallet.
* C124 `c124_first_refuted`: an absent list of encryption algorithms allows everything and a present one only what it names, so a wallet that
  starts to name what it supports refuses requests it answered before (unlike for prefixes and signing algorithms, where adding never restricts).
* C63 `c63_namesake_refuted`: a known format with an unusable payload (say `{"ldp_vc": {"proof_types": []}}`) is read as an unknown one, and
  its designation `Other("ldp_vc")` is printed like `LdpVc` but is not equal to it.
* C129 `c129_two_refuted`: two different responses to one session are both answered with success, and the one judged last is what the session
  keeps; so the outcome depends on the order in which the network delivers them.
* C133 `c133_unbounded`: the example verifier keeps the session of every presentation ever started, also after it has ended; anybody can make it
  use more and more memory.
* C134 `c134_restrict_refuted`: dropping the list of types from a credential query can turn an answered query into a refused one, because the
  example wallet looks at the claims of a query only when it names no type or document type.
* C135 `c135_clash`: the example wallet's endpoint may carry a query of its own, but if this names a client every request naming one is refused
  (`append_pair` adds a second `client_id`).
* C136 `c136_amplify_refuted`: twenty-one bytes in a request are enough to make the example wallet send one more copy of a whole credential: queries
  may repeat the same id, and nothing bounds their number.
* C137 `c137_level_refuted`: the example verifier's log level cannot be lowered: `with_max_level(Level::TRACE)` (main.rs:48) replaces the filter made from
  `RUST_LOG` or `--log-level`, so the debug line with the body of each response is always written. `c137_decrypted_refuted`: the token of an encrypted
  response is logged in the clear at info level (handlers.rs:192), although only counts are logged for unencrypted ones. `c137_unnamed_refuted`: a session
  whose request was dropped after storing it is in no line.
* C138 `c138_echo_refuted`: the example wallet logs what a refusing verifier answers, which may be the presentations it was sent.
* C139 `c139_late_refuted`: in the command line verifier too, a fetch of the request that overlaps a response marks the session as sent after the verdict
  was recorded, and the verdict is lost (cf. C38, C94).
* C140 `c140_forged_refuted`: the warning about a wrong `typ` header (mod.rs:418-423) quotes it as it is, line breaks included, before anything about the request is
  verified: whoever makes a request can write lines of their own into the wallet's log.
## Trusted base

* Coq 8.16.1's kernel, including its `vm_compute` machine.
* No axiom: `Print Assumptions` answers "Closed under the global context" for every theorem below. The
  development declares none and uses no axiom of the standard library or of any other library in a theorem.
* The reading of the Rust code and of the external crates recorded in the comments of the model files.

`Print Assumptions` per theorem (537 theorems):

| file | theorems, all "Closed under the global context" |
|---|---|
| `PAccess.v` | c09_accessors |
| `PAgree.v` | c117_x509_hash c117_did c117_answer c117_secret c117_san_refuted |
| `PAnnounce.v` | c92_served c92_read c92_clients c92_enc_refuted c92_prefix_refuted |
| `PAnyAtomic.v` | c125_sequential c125_lasting c125_answers c125_once c125_crash |
| `PAnyStore.v` | c116_protocol c116_any_store c116_trusted |
| `PAtomic.v` | c122_sequential c122_answers c122_arranged c122_in_time c122_late_refuted |
| `PBuilder.v` | c29_build c29_build_dc_api c29_fresh c29_succeeds c29_reuse_refuted c30_failed_build c31_response_uri c31_request_uri c32_understood c32_clients c33_prefix |
| `PCache.v` | c101_pair c101_stable c101_recovers c101_reads c101_name c101_separate c101_file c101_text c101_evict_refuted c101_mixed_refuted |
| `PCliAtomic.v` | c139_sequential c139_answers c139_arranged c139_in_time c139_late_refuted |
| `PCliWeb.v` | c109_routes c109_refused c109_behaves c109_completed c109_truthful c109_answered c109_links c109_served c109_head_refuted |
| `PClient.v` | c27_did c27_x509_hash c27_x509_san c28_fragments c70_x509_hash c70_x509_san c70_did |
| `PCompany.v` | c130_undisturbed c130_random c130_presentation |
| `PConfig.v` | c83_did_made c83_did c83_x509_made c83_x509 c84_complete c84_settings c84_request c84_dropped |
| `PConsole.v` | c100_completed c100_truthful c100_answered c100_status c100_once c100_alone c100_possible c100_lost_refuted c100_unstored_refuted c100_stranger_refuted |
| `PConverge.v` | c129_repeat c129_converge c129_concurrent c129_two_refuted |
| `PDcql.v` | c56_roundtrip c56_parsed c57_credential_defaults c57_set_defaults c57_new c57_bare c58_accessors c59_nonempty c59_default_refuted |
| `PDid.v` | c23_did c24_none_bypass c24_no_bypass |
| `PEdit.v` | c108_cred c108_auths c108_set c108_claim c108_query c108_sent c108_claim_sets_refuted c108_token |
| `PEncodings.v` | c97_base64url c97_certificates c96_repair c96_written c96_form |
| `PExAtomic.v` | c123_sequential c123_answers c123_arranged c123_in_time c123_late_refuted |
| `PExCli.v` | c81_accepts c81_query c81_covered c81_formats c81_ids c81_ids_refuted c80_setup c80_succeeds c80_readable c80_unanswered c82_received |
| `PExHistory.v` | c94_linear c94_fresh c94_ends c94_all_answered c94_only_race c94_regress_refuted |
| `PExInitiate.v` | c77_initiate c77_failed c77_succeeds |
| `PExServer.v` | c76_success c76_error c76_no_failure c76_unchecked_refuted c78_ids c78_status c78_request c78_response c78_refused c78_route c78_status_url_refuted |
| `PExample.v` | c67_sound c67_complete c67_claims_refuted c67_sets_refuted c72_key_binding c68_bound c68_success c68_unverified_refuted c73_encryption c73_unlisted_refuted c75_direct c75_no_request c74_contents c74_consent |
| `PFlow.v` | c85_validated c85_silent c85_effects c86_validated c86_answered c86_did c86_x509 |
| `PFormats.v` | c62_supports c62_order c63_names c63_payloads c63_map_lossless c63_map_lossy_refuted c63_claim_format c63_designation c63_namesake_refuted c63_claim_format_lossy_refuted c63_add |
| `PFresh.v` | c88_fresh |
| `PGrammar.v` | c95_grammar c95_unambiguous c95_utf8 c95_utf8_unique |
| `PGuess.v` | c127_apart c127_stranger c127_server c127_power |
| `PHistory.v` | c88_linear c88_answers c89_ends c89_no_waiting c89_all_return c90_cancelled |
| `PHolder.v` | c110_holder c110_bound c110_credential_refuted |
| `PHolding.v` | c134_more c134_wallet c134_superset c134_fewer c134_restrict_refuted c134_first |
| `PHost.v` | c115_domain c115_hosts |
| `PHostFlow.v` | c115_interop |
| `PHostUrl.v` | c115_urls c115_start c115_takes |
| `PHttp.v` | c102_params c102_outcome c102_sent c102_echo c102_denied c102_effects c102_refused c103_private c102_head c103_jwks c102_timeout_refuted |
| `PHttpFlow.v` | c113_sessions c113_traffic c113_interop |
| `PHttpUri.v` | c113_takes |
| `PIds.v` | c78_texts |
| `PIgnored.v` | c121_request c121_gate c121_answer c121_did c121_x509 c121_validate c121_wallet c121_expired_refuted |
| `PInterop.v` | c79_wallet c79_interop |
| `PIp.v` | c115_ipv6 c115_ipv6_same |
| `PIso.v` | c51_redirect c51_dc_api c51_serialize c52_redirect c52_dc_api c52_flows c53_handover c53_transcript c53_roundtrip c53_bytes c53_empty_refuted c54_rfc7638 c54_depends c54_injective c54_quotes_refuted c55_which_key c55_differ_refuted c55_agree |
| `PJoinFlow.v` | c114_stays c114_client c114_submit c114_validate |
| `PJwe.v` | c47_selection c48_build c49_contents c49_delivered c50_unencryptable_refuted c50_enc_refuted c50_refused_refuted c50_remaining |
| `PJweCalls.v` | c48_calls |
| `PLibLog.v` | c140_choice c140_presentations c140_selected c140_metadata c140_lenient c140_forged_refuted c140_names c140_hash c140_client |
| `PLibLogRun.v` | c141_accepted c141_few c141_refused c141_fetched c141_own c141_holder c141_bit c141_hash |
| `PLog.v` | c137_transparent c137_presentations c137_decrypted_refuted c137_level_refuted c137_threshold c137_audit c137_created c137_unnamed_refuted |
| `PLogWallet.v` | c138_credentials c138_ordinary c138_parameters c138_failures c138_sent c138_echo_refuted |
| `PMetadata.v` | c60_roundtrip c60_exact c60_accept c60_new c60_static c60_stale_refuted c61_signing c61_prefixes |
| `PMore.v` | c124_validates c124_did c124_x509 c124_builds c124_added c124_credentials c124_first_refuted |
| `PNonce.v` | c64_likely |
| `PNumber.v` | c120_text c120_integers c120_request c120_metadata c120_gate c120_query c120_matcher c120_token c120_rewritten_refuted |
| `PObject.v` | c01_insert c01_insert_failed c01_remove c01_sequence c02_get c02_default c02_required |
| `POrder.v` | c119_objects c119_text c119_request c119_metadata c119_gate c119_query c119_matcher c119_encrypted c119_token c119_designation_refuted |
| `PPages.v` | c102_pages |
| `PPanic.v` | c99_chain c99_static c99_types |
| `PParams.v` | c03_text_params c03_enum_params c03_url_params c03_structured_params c03_map_params c03_insert_get c04_prefix c05_modes c05_jarm c64_nonce c64_uniform |
| `PPassing.v` | c131_wallet c131_only c131_example c131_builder c131_followed |
| `PPopulation.v` | c133_library c133_example c133_unbounded |
| `PPrint.v` | c118_lines c118_says c118_plain c118_verdict c118_control_refuted |
| `PQuery.v` | c87_query |
| `PRandomId.v` | c126_shape c126_likely c126_guesses c126_collisions c126_build c126_replaced c126_apart |
| `PReading.v` | c98_text c98_enum c98_url c98_structured c98_maps c98_claim_format |
| `PRequest.v` | c06_accept c07_return_uri c07_no_influence c07_placeholder_refuted c08_roundtrip c09_views c09_mutation c09_stale_refuted c10_classification c11_matching c11_scheme_ignored c12_roundtrip c12_confusion_refuted c12_texts c12_unserialisable |
| `PReqwest.v` | c111_execute c111_body c111_submit c111_validate c111_elsewhere_refuted c111_example |
| `PResolve.v` | c13_traffic c14_typ c14_bypass_refuted c15_body c16_client_ids c16_late_refuted c16_missing_inner_refuted c17_direct c69_direct_text |
| `PResponse.v` | c42_roundtrip c42_order c42_jwt c42_deep_refuted c43_no_injection c43_injective c44_encrypted c44_unencoded c71_roundtrip c71_precedence |
| `PReveal.v` | c128_url c128_length c128_by_value c128_initiate |
| `PSealed.v` | c132_example c132_library c132_alike c132_plain_refuted |
| `PServer.v` | c40_alone c36_isolated c36_projection c37_immutable c37_retrieved c39_outcome c39_polled c38_race_refuted c38_only_race c38_by_value |
| `PSession.v` | c41_rank c41_laws c34_map c34_contended c35_retrieve c35_idempotent c40_verify_response c40_poll |
| `PSha.v` | c91_sha256 |
| `PShipped.v` | c104_load c104_config c104_discloses c104_answers c104_consent c104_claims c104_reveals c104_minimal_refuted c104_endpoint_refuted |
| `PSibling.v` | c114_sibling |
| `PSigner.v` | c106_signer c106_did_made c106_annotated_refuted c106_did c106_x509 c106_mismatch |
| `PSize.v` | c136_json_read c136_json_written c136_form_read c136_form_written c136_request c136_response c136_answer c136_copies c136_amplify_refuted |
| `PStart.v` | c107_hostless c107_printed c107_accepted c107_mode c107_mode_refuted c107_endpoints c107_endpoints_refuted |
| `PStatus.v` | c93_reads c93_roundtrip c93_faithful |
| `PText.v` | c66_roundtrip c66_injective c66_parsed c66_last_wins c65_make_jwt c65_canonical c65_unique |
| `PVerify.v` | c18_gate c18_validate c18_preregistered_refuted c21_metadata c19_one_hook c19_origin c19_validate c20_default c22_explicit_mode c22_validate |
| `PWallet.v` | c45_traffic c45_silent c45_response_uri c46_redirect c46_no_redirect |
| `PWeb.v` | c105_routes c105_refused c105_behaves c105_success c105_business c105_links c105_head_refuted c105_timeout_refuted |
| `PWebFlow.v` | c112_sessions c112_metadata c112_interop |
| `PWebJoin.v` | c114_resolves |
| `PWebReads.v` | c112_reads |
| `PWebUrl.v` | c112_normal c112_reread |
| `PWritten.v` | c135_url c135_wallet c135_response c135_endpoint c135_clash c135_own |
| `PX509.v` | c25_x509_hash c26_x509_san c25_roots c25_p256 |
