{"id": "C01", "title": "Untyped object is a finite map", "statement": "Inserting a typed parameter into an UntypedObject makes a following get of that parameter return the inserted value, leaves every parameter with a different key unchanged, and returns the previous value; remove makes the parameter absent and leaves other keys unchanged; a failed conversion leaves the object unchanged.", "quantifier": "every object, every typed parameter and every value, any sequence of operations", "why_tests_cant": "the key space and the object contents are unbounded; tests sample a few keys", "anchors": ["src/core/object/mod.rs: UntypedObject::get, insert, remove, get_or_default", "src/core/object/mod.rs: TypedParameter"]}
{"id": "C02", "title": "Absent, malformed and default parameters are distinguished", "statement": "get returns None exactly when the key is absent, an error exactly when it is present and ill-typed; get_or_default falls back to the default only when the key is absent, never when the value is malformed.", "quantifier": "every object and every parameter type with a default", "why_tests_cant": "all JSON values in all positions", "anchors": ["src/core/object/mod.rs: get, get_or_default, ParsingErrorContext"]}
{"id": "C03", "title": "Typed parameters survive the JSON round trip", "statement": "Converting any authorization request parameter, client metadata parameter or wallet metadata parameter to JSON and back yields the same value.", "quantifier": "every value of every typed parameter (canonical values for types with an 'unknown' variant)", "why_tests_cant": "value spaces are infinite; tests use one literal per type", "anchors": ["src/core/authorization_request/parameters.rs: TryFrom impls", "src/core/metadata/parameters/wallet.rs", "src/core/metadata/parameters/verifier.rs"]}
{"id": "C04", "title": "Client identifier prefix resolution", "statement": "The resolved client identifier prefix is the text before the first colon; an identifier without a colon has no prefix and is treated as pre-registered.", "quantifier": "every client identifier string", "why_tests_cant": "strings with any number of colons at any positions", "anchors": ["src/core/authorization_request/parameters.rs: ClientId::resolve_prefix"]}
{"id": "C05", "title": "Response mode names are decided exactly", "statement": "The five kinds of response mode are recognised exactly by their registered names, every other string is kept as unsupported and printed back unchanged, the default is direct_post, and a mode is an encrypted (JARM) mode exactly for direct_post.jwt and dc_api.jwt, with unsupported modes an error.", "quantifier": "every string", "why_tests_cant": "infinite set of strings", "anchors": ["src/core/authorization_request/parameters.rs: ResponseMode"]}
{"id": "C06", "title": "Acceptance table of request objects", "statement": "A parameter object is accepted as an authorization request object if and only if: the client_id, if any, is a string; the response mode is known; not both redirect_uri and response_uri are present; direct_post modes carry a parsable response_uri; dc_api modes carry neither; the response type and nonce are present and well-formed.", "quantifier": "every JSON object", "why_tests_cant": "the conjunction ranges over all combinations of presence, absence and ill-typing of seven parameters with unbounded values", "anchors": ["src/core/authorization_request/mod.rs: TryFrom<UntypedObject> for AuthorizationRequestObject"]}
{"id": "C07", "title": "The return URI is the one the request names", "statement": "For an accepted direct_post or direct_post.jwt request the URI that the response is sent to is the request's response_uri; no other parameter can influence it.", "quantifier": "every accepted request object", "why_tests_cant": "all request objects", "anchors": ["src/core/authorization_request/mod.rs: TryFrom<UntypedObject> for AuthorizationRequestObject, return_uri"]}
{"id": "C08", "title": "Request objects round trip and keep unknown parameters", "statement": "Turning an accepted request object back into JSON yields the original JSON including parameters the library does not know, and parsing that again yields the same request object.", "quantifier": "every accepted request object", "why_tests_cant": "all objects with any number of unknown parameters", "anchors": ["src/core/authorization_request/mod.rs: From<AuthorizationRequestObject> for UntypedObject"]}
{"id": "C09", "title": "Parsed views agree with the raw parameters", "statement": "After parsing, client_id, client identifier prefix, response mode, response type and nonce accessors equal what the raw parameters say, and so do the accessors for the query, the state, the client metadata, the formats and whether an ID token is requested. After mutation through the map view they can disagree: the accessors keep the old values.", "quantifier": "every accepted request object and every later mutation", "why_tests_cant": "histories of mutation", "anchors": ["src/core/authorization_request/mod.rs: Deref, DerefMut, accessors"]}
{"id": "C10", "title": "Classification of authorization requests", "statement": "A query string with a single 'request' parameter is a request by value, otherwise with a single parsable 'request_uri' a request by reference, otherwise the remaining parameters form the request directly; a repeated client_id is rejected.", "quantifier": "every query string", "why_tests_cant": "all multisets of pairs, duplicates, percent-encodings", "anchors": ["src/core/authorization_request/mod.rs: AuthorizationRequest, RequestIndirection, from_query_params"]}
{"id": "C11", "title": "Authorization URL matching", "statement": "A URL is accepted by from_url exactly when it has a query and its authority and path equal the wallet's authorization endpoint. The scheme is not compared, so a request for another scheme is accepted.", "quantifier": "every pair of URLs", "why_tests_cant": "all URLs", "anchors": ["src/core/authorization_request/mod.rs: AuthorizationRequest::from_url"]}
{"id": "C12", "title": "Authorization URL round trip", "statement": "Serialising an authorization request into a URL on the endpoint and reading it back gives the same request (client_id, indirection and string parameters); numbers and booleans among direct parameters come back as their JSON texts, and only null, lists and objects cannot be written.", "quantifier": "every request by value, by reference or with string-, number- or boolean-valued direct parameters and every endpoint", "why_tests_cant": "all strings including reserved and non-ASCII characters", "anchors": ["src/core/authorization_request/mod.rs: to_url, from_url"]}
{"id": "C13", "title": "Network traffic of request resolution", "statement": "Resolving and validating a request performs exactly one HTTP request, a GET of the given request_uri with the Prefer: OID4VP-1.0.0 header and an empty body, when the request is by reference (none if the URI is not a valid HTTP target), and none otherwise.", "quantifier": "every request, every wallet, every server behaviour", "why_tests_cant": "all environments", "anchors": ["src/core/authorization_request/mod.rs: resolve_request", "src/core/util/mod.rs: base_request"]}
{"id": "C14", "title": "Request object type header is enforced", "statement": "Whenever the outer client_id is not a redirect_uri identifier, a request by value or by reference is only resolved if the protected header's typ is oauth-authz-req+jwt. With an outer redirect_uri client_id a wrong or missing typ is accepted, even if the inner object names a different client (in validate the mismatch is rejected only when the inner object has a client_id).", "quantifier": "every request and JWT", "why_tests_cant": "all JWT headers", "anchors": ["src/core/authorization_request/mod.rs: validate_request_object_typ, resolve_request"]}
{"id": "C15", "title": "Only a successful UTF-8 body is used", "statement": "A by-reference request is only resolved from a 2xx response with a valid UTF-8 body; every transport error, other status, or undecodable body is an error and no hook runs.", "quantifier": "every HTTP behaviour", "why_tests_cant": "all environments", "anchors": ["src/core/authorization_request/mod.rs: resolve_request"]}
{"id": "C16", "title": "Outer and inner client identifiers must agree", "statement": "A validated request by value or by reference has equal outer and inner client_id whenever both are present.", "quantifier": "every request, wallet and environment", "why_tests_cant": "all inputs", "anchors": ["src/core/authorization_request/mod.rs: AuthorizationRequest::validate"]}
{"id": "C17", "title": "Direct parameters take the outer client identifier", "statement": "For a request given directly by its parameters, the client_id in the resulting object is the outer client_id and no JWT is passed to verification.", "quantifier": "every direct request", "why_tests_cant": "all inputs", "anchors": ["src/core/authorization_request/mod.rs: resolve_request"]}
{"id": "C18", "title": "Metadata gate precedes verification hooks", "statement": "No verification hook runs for a client identifier with a prefix unless that prefix is in the wallet's client_id_prefixes_supported (only pre-registered when the list is absent). A client identifier without a prefix is not checked against the list: the pre-registered hook runs even when the wallet does not list pre-registered.", "quantifier": "every request, wallet metadata and hook behaviour", "why_tests_cant": "all environments and hook implementations", "anchors": ["src/core/authorization_request/verification/mod.rs: verify_request, validate_request_against_metadata"]}
{"id": "C19", "title": "Exactly one matching hook decides", "statement": "Verification succeeds exactly when the metadata checks pass and the single hook for the request's client identifier prefix accepts; no other hook runs; no prefix means the pre-registered hook, an unregistered prefix the catch-all hook, and origin is always rejected without running a hook.", "quantifier": "every request, wallet metadata and hook behaviour", "why_tests_cant": "all environments and hook implementations", "anchors": ["src/core/authorization_request/verification/mod.rs: verify_request"]}
{"id": "C20", "title": "A wallet that implements no hook accepts nothing", "statement": "With the default hooks, no request is ever accepted.", "quantifier": "every request and wallet metadata", "why_tests_cant": "all inputs", "anchors": ["src/core/authorization_request/verification/mod.rs: RequestVerifier default methods"]}
{"id": "C21", "title": "Encrypted response modes require usable client keys", "statement": "If a request in an encrypted response mode passes the metadata check, the client metadata contain a key set with at least one key with use=enc and a string alg, and that alg and one of the client's enc values are among the wallet's, when the wallet lists them.", "quantifier": "every request and wallet metadata", "why_tests_cant": "all key sets", "anchors": ["src/core/authorization_request/verification/mod.rs: validate_request_against_metadata"]}
{"id": "C22", "title": "Validation demands an explicit response mode", "statement": "Although an absent response_mode means direct_post when parsing, validation rejects every request whose response_mode is absent.", "quantifier": "every request object without response_mode", "why_tests_cant": "all inputs", "anchors": ["src/core/authorization_request/verification/mod.rs: validate_request_against_metadata", "src/core/authorization_request/parameters.rs: ResponseMode default"]}
{"id": "C23", "title": "DID verification is sound", "statement": "If verify_with_resolver accepts with an alg that does not contain 'none', then the alg is supported by the wallet, the kid's DID equals the client_id's DID, the DID is trusted when a trust list is given, and the JWT carries a valid signature by the key the resolver returns for the kid.", "quantifier": "every JWT, resolver, key and trust list", "why_tests_cant": "all inputs and resolvers", "anchors": ["src/core/authorization_request/verification/did.rs: verify_with_resolver"]}
{"id": "C24", "title": "alg none bypasses DID verification", "statement": "If the wallet supports an algorithm whose name contains 'none', a JWT with that alg is accepted by DID verification for any client_id, without a signature and even when the DID is not on the trust list.", "quantifier": "every client_id, trust list and resolver", "why_tests_cant": "all inputs", "anchors": ["src/core/authorization_request/verification/did.rs: verify_with_resolver"]}
{"id": "C25", "title": "x509_hash verification is sound", "statement": "If x509_hash validation accepts, the client_id is x509_hash: followed by the base64url SHA-256 of the first x5c certificate, the alg is supported, and the signature over header.payload verifies under that certificate's key; the trusted roots argument has no effect.", "quantifier": "every JWT, wallet metadata, root list and signature verifier", "why_tests_cant": "all inputs", "anchors": ["src/core/authorization_request/verification/x509_hash.rs: validate"]}
{"id": "C26", "title": "x509_san_dns verification is sound", "statement": "x509_san_dns validation accepts exactly when the client_id names one of the DNS names in a subject alternative name extension of the first x5c certificate (extensions that do not decode and names of other kinds never count, and it need not be the first name or the first such extension), the alg is supported, and the signature verifies under that certificate's key; the trusted roots argument has no effect.", "quantifier": "every JWT, wallet metadata, root list and signature verifier", "why_tests_cant": "all inputs", "anchors": ["src/core/authorization_request/verification/x509_san.rs: validate"]}
{"id": "C27", "title": "Signed requests of the library's verifier are accepted by its wallet", "statement": "A request object signed by the DID, x509_hash or x509_san_dns client is accepted by the matching verification function, given a wallet that supports the algorithm and a signature scheme that verifies its own signatures (single '#' in the verification method for DID).", "quantifier": "every request body, key, certificate and DID", "why_tests_cant": "all inputs", "anchors": ["src/verifier/client.rs", "src/core/authorization_request/verification/did.rs", "src/core/authorization_request/verification/x509_hash.rs", "src/core/authorization_request/verification/x509_san.rs"]}
{"id": "C28", "title": "DID client and DID verifier disagree on fragments", "statement": "For a verification method with two '#' the DID client builds a client_id that DID verification rejects.", "quantifier": "verification methods with more than one '#'", "why_tests_cant": "needs a universally quantified rejection", "anchors": ["src/core/authorization_request/verification/did.rs", "src/verifier/client.rs: DIDClient::new"]}
{"id": "C29", "title": "Building a request stores exactly one matching session", "statement": "If the builder returns an authorization URL for a session id, the store gains exactly that session, holding the request object and its signed JWT as conveyed by the URL, with the initial status sent-by-reference when by reference and sent otherwise; other sessions are unchanged.", "quantifier": "every builder configuration, store contents and client", "why_tests_cant": "all configurations and store histories", "anchors": ["src/verifier/request_builder.rs: build_with_session_id"]}
{"id": "C30", "title": "A failed build leaves no trace", "statement": "If building a request fails, the session store is unchanged.", "quantifier": "every builder configuration and store", "why_tests_cant": "all configurations", "anchors": ["src/verifier/request_builder.rs: build_with_session_id, build_dc_api"]}
{"id": "C31", "title": "Response URIs are per-session", "statement": "In every built direct_post request the response_uri is the submission endpoint extended by the session id; different session ids give different response URIs and different request URIs.", "quantifier": "every endpoint and pair of session ids", "why_tests_cant": "all pairs", "anchors": ["src/verifier/request_builder.rs: build_with_session_id"]}
{"id": "C32", "title": "A built request is understood by the wallet", "statement": "The URL produced by the builder, read back with from_url on the wallet's endpoint and resolved, yields a request object equal to the stored one, by value directly and by reference when the fetch returns the stored JWT.", "quantifier": "every builder configuration", "why_tests_cant": "composition of two programs over all configurations", "anchors": ["src/verifier/request_builder.rs", "src/core/authorization_request/mod.rs: from_url, resolve_request"]}
{"id": "C33", "title": "Builder honours wallet client identifier prefixes", "statement": "No request is built for a wallet whose metadata do not list the client's prefix.", "quantifier": "every client and wallet metadata", "why_tests_cant": "all configurations", "anchors": ["src/verifier/request_builder.rs: build_with_session_id"]}
{"id": "C34", "title": "Session store behaves as a map with total operations", "statement": "Any sequence of initiate, update_status, get and remove on the memory store returns what a finite map from session ids would, whatever other sessions are touched.", "quantifier": "every operation sequence", "why_tests_cant": "unbounded histories", "anchors": ["src/verifier/session.rs: MemoryStore"]}
{"id": "C35", "title": "Retrieving the request object is idempotent and monotone", "statement": "Retrieving the authorization request JWT returns the JWT stored at build time, every time; run by itself it never moves the status backwards.", "quantifier": "every store and session", "why_tests_cant": "unbounded histories", "anchors": ["src/verifier/mod.rs: retrieve_authorization_request"]}
{"id": "C36", "title": "Sessions are isolated", "statement": "Under any interleaving of requests for many sessions, operations addressed to one session never change another session's status, request or JWT.", "quantifier": "every interleaving of any number of threads", "why_tests_cant": "schedules are unbounded", "anchors": ["src/verifier/mod.rs", "src/verifier/session.rs: MemoryStore"]}
{"id": "C37", "title": "Session request data are immutable", "statement": "Under any interleaving, a session's request object and JWT never change between creation and removal.", "quantifier": "every interleaving of retrieve, verify_response, poll and remove", "why_tests_cant": "schedules are unbounded", "anchors": ["src/verifier/session.rs: MemoryStore", "src/verifier/mod.rs"]}
{"id": "C38", "title": "A concurrent retrieve can undo a completed session", "statement": "A retrieve whose status check precedes and whose update follows a response for the same session puts the status of a completed session back to sent: monotonicity fails under concurrency.", "quantifier": "existence of a schedule", "why_tests_cant": "needs a particular schedule", "anchors": ["src/verifier/mod.rs: retrieve_authorization_request, verify_response"]}
{"id": "C39", "title": "No outcome without validation", "statement": "Under any interleaving, a session's status is Complete(o) only if a response for that session was validated and the validator returned o for the stored session and that response.", "quantifier": "every interleaving, validator and response", "why_tests_cant": "schedules are unbounded", "anchors": ["src/verifier/mod.rs: verify_response"]}
{"id": "C40", "title": "Response verification protocol", "statement": "verify_response for an unknown session is an error without running the validator; for a known session it passes the response and the stored session to the validator once and then the status is Complete of the validator's outcome; a second response for a completed session is processed again and overwrites the outcome.", "quantifier": "every store, response and validator", "why_tests_cant": "all inputs and histories", "anchors": ["src/verifier/mod.rs: verify_response"]}
{"id": "C41", "title": "Status and outcome ordering laws", "statement": "Statuses are totally ordered by protocol progress and outcomes error<failure<success; equality of outcomes ignores the payload; the order is transitive, total and consistent with equality.", "quantifier": "every pair and triple of statuses", "why_tests_cant": "payloads are unbounded", "anchors": ["openid4vp-frontend/src/lib.rs: Status, Outcome"]}
{"id": "C42", "title": "Form encoding of responses round trips", "statement": "An unencoded response serialised as application/x-www-form-urlencoded and parsed by the verifier gives back the same vp_token and state, whatever the order in which the token's entries are emitted.", "quantifier": "every vp_token and state", "why_tests_cant": "all unicode strings, all map iteration orders", "anchors": ["src/core/response/mod.rs: into_x_www_form_urlencoded, from_x_www_form_urlencoded"]}
{"id": "C43", "title": "No parameter injection through response values", "statement": "The form body of an unencoded response consists of exactly the vp_token and state pairs: no credential or state text can add or alter a pair.", "quantifier": "every vp_token and state", "why_tests_cant": "all strings", "anchors": ["src/core/response/mod.rs: into_x_www_form_urlencoded"]}
{"id": "C44", "title": "Encrypted responses take precedence in parsing", "statement": "A form body with exactly one 'response' parameter is always read as an encrypted response, whatever else it contains; an encrypted response never parses as an unencoded one and conversely for bodies without it.", "quantifier": "every form body", "why_tests_cant": "all bodies", "anchors": ["src/core/response/mod.rs: from_x_www_form_urlencoded"]}
{"id": "C45", "title": "Responses go only where they should", "statement": "Submitting a response sends at most one HTTP request; it is a form POST of the encoded response to the request's return URI, in direct_post modes and with the response kind that matches the mode; nothing is sent in dc_api modes, for an unsupported mode or for a kind mismatch.", "quantifier": "every request object, response and server behaviour", "why_tests_cant": "all environments", "anchors": ["src/wallet.rs: submit_response"]}
{"id": "C46", "title": "Redirects after submission", "statement": "submit_response returns a redirect URL only if the server answered 2xx with a JSON object whose redirect_uri is that URL; an empty body gives none; other statuses are errors.", "quantifier": "every server behaviour", "why_tests_cant": "all environments", "anchors": ["src/wallet.rs: submit_response"]}
{"id": "C47", "title": "Encryption key selection", "statement": "The encryption key chosen from the client metadata is the first key in the set with alg ECDH-ES and crv P-256 that is not marked for another use; if no key qualifies, or that first key is not a valid JWK, the result is an error.", "quantifier": "every key set", "why_tests_cant": "all key sets of all sizes", "anchors": ["src/core/jwe.rs: find_encryption_jwk"]}
{"id": "C48", "title": "JWE builder preconditions and header", "statement": "A JWE is produced only from an object payload, a recipient key and the alg ECDH-ES; its header carries that alg, the configured enc, and the explicit key id or else the key's. When a setting is given several times, in whatever order the builder is filled, the latest one counts.", "quantifier": "every builder configuration and every sequence of builder calls", "why_tests_cant": "all configurations", "anchors": ["src/core/jwe.rs: JweBuilder::build"]}
{"id": "C49", "title": "Encrypted response contents", "statement": "build_encrypted_response encrypts exactly the vp_token and the state it is given (if any) to the selected client key with the client's first enc value (A128GCM when it lists none).", "quantifier": "every request object and vp_token", "why_tests_cant": "all inputs", "anchors": ["src/core/jwe.rs: build_encrypted_response"]}
{"id": "C50", "title": "Validated requests need not be encryptable", "statement": "A request may pass validation in an encrypted response mode and still leave build_encrypted_response failing or using an enc value the wallet does not list.", "quantifier": "existence over requests and metadata", "why_tests_cant": "interaction of two independent checks over all metadata", "anchors": ["src/core/jwe.rs", "src/core/authorization_request/verification/mod.rs"]}
{"id": "C51", "title": "Session transcript encoding", "statement": "The session transcript bytes are the CBOR array [null, null, [name, SHA-256(info)]] where info is the CBOR array of client_id, nonce, thumbprint or null and response URI (or origin, nonce, thumbprint for the DC API).", "quantifier": "every handover", "why_tests_cant": "all strings of all lengths (CBOR length boundaries)", "anchors": ["src/core/iso_18013_7/mod.rs: Handover, DcApiHandover, SessionTranscript"]}
{"id": "C52", "title": "Session transcripts bind their inputs", "statement": "Two redirect (or DC API) handovers with different client_id, nonce, thumbprint or URI have different info bytes, so equal transcripts imply equal inputs or a SHA-256 collision; redirect and DC API transcripts are never equal.", "quantifier": "every pair of handovers", "why_tests_cant": "all pairs", "anchors": ["src/core/iso_18013_7/mod.rs"]}
{"id": "C53", "title": "Transcript decoding inverts encoding", "statement": "Decoding the CBOR encoding of a handover or session transcript gives it back. Of all byte strings, however written (tags, definite or indefinite lengths, heads of any length), exactly those are read as a handover that begin with an array of at least two items starting with the type identifier and bytes (a byte string or an array of small integers), and exactly those as a transcript that begin with an array of at least three items starting with two nulls and such a handover, or with an array of indefinite length that ends before its third item and is followed by such a handover.", "quantifier": "every handover and every byte string", "why_tests_cant": "all inputs", "anchors": ["src/core/iso_18013_7/mod.rs: Serialize/Deserialize impls"]}
{"id": "C54", "title": "JWK thumbprints are canonical", "statement": "The thumbprint is SHA-256 of the RFC 7638 canonical JSON of the required members, so it depends on nothing else and, for members free of quotes and backslashes, different keys give different canonical texts; with quotes two different keys can collide.", "quantifier": "every JWK", "why_tests_cant": "all member values", "anchors": ["src/core/iso_18013_7/mod.rs: compute_jwk_thumbprint"]}
{"id": "C55", "title": "The thumbprint key and the encryption key can differ", "statement": "The key whose thumbprint enters the session transcript is the first key not marked for another use whose thumbprint computes; it can be a different key than the one chosen for encryption. They agree when the first key not marked for another use is an EC P-256 key with alg ECDH-ES and x and y.", "quantifier": "every key set", "why_tests_cant": "all key sets", "anchors": ["src/core/iso_18013_7/mod.rs: get_encryption_jwk_thumbprint", "src/core/jwe.rs: find_encryption_jwk"]}
{"id": "C56", "title": "DCQL queries round trip", "statement": "A DCQL query converted to JSON and back is the same query, for every query with canonical format and authority names.", "quantifier": "every query", "why_tests_cant": "nested unbounded lists", "anchors": ["src/core/dcql_query.rs"]}
{"id": "C57", "title": "DCQL defaults", "statement": "Holder binding defaults to required, multiple to false, credential sets to required, and an explicit value always wins. What the constructors make says nothing beyond what they were given.", "quantifier": "every query", "why_tests_cant": "all queries", "anchors": ["src/core/dcql_query.rs: require_cryptographic_holder_binding, multiple, is_required"]}
{"id": "C58", "title": "DCQL path accessors", "statement": "namespace, element identifier and claim name are the first, second and last text elements of the path, as applicable.", "quantifier": "every path", "why_tests_cant": "paths of any length", "anchors": ["src/core/dcql_query.rs: namespace, element_identifier, claim_name"]}
{"id": "C59", "title": "Non-empty lists stay non-empty", "statement": "A NonEmptyVec obtained from its constructors, deserialisation and push is never empty; the Default instance breaks this.", "quantifier": "every operation sequence", "why_tests_cant": "unbounded sequences", "anchors": ["src/utils.rs: NonEmptyVec"]}
{"id": "C60", "title": "Wallet metadata round trip", "statement": "Wallet metadata parsed from JSON and converted back equals the JSON up to normalisation of the endpoint and formats, keeps unknown parameters, and parses again to the same metadata.", "quantifier": "every metadata object", "why_tests_cant": "all objects", "anchors": ["src/core/metadata/mod.rs: TryFrom/From"]}
{"id": "C61", "title": "Metadata additions accumulate", "statement": "Adding signing algorithms or client identifier prefixes keeps everything already supported (including the default pre-registered), adds the new values, and changes no other parameter.", "quantifier": "every metadata object and list", "why_tests_cant": "all objects", "anchors": ["src/core/metadata/mod.rs: add_request_object_signing_alg_values_supported, add_client_id_prefixes_supported"]}
{"id": "C62", "title": "Supported formats query", "statement": "A format/security method pair is supported exactly when the formats map has an alg_values or proof_type_values entry for the format listing the method.", "quantifier": "every format map, format and method", "why_tests_cant": "all maps", "anchors": ["src/core/metadata/parameters/verifier.rs: supports_security_method", "src/core/credential_format/mod.rs"]}
{"id": "C63", "title": "Format designations and payloads round trip", "statement": "Format names parse and print consistently; format payloads round trip except that an opaque payload with the shape of a known one is read as the known one. The designation of a claim format that was read is named by the first member of its JSON object, and is a known one exactly if that is the only member and its payload is usable.", "quantifier": "every designation and payload", "why_tests_cant": "all strings and JSON", "anchors": ["src/core/credential_format/mod.rs"]}
{"id": "C64", "title": "Random nonces are well-formed and uniform", "statement": "A random nonce of length n has exactly n characters, all alphanumeric, and with uniformly random words every such text is equally likely, within any number of words drawn.", "quantifier": "every length and every random source", "why_tests_cant": "all random streams", "anchors": ["src/core/authorization_request/parameters.rs: Nonce::random"]}
{"id": "C65", "title": "JWT assembly and reading are inverse", "statement": "The JWT made from a header and body splits into exactly the three base64url parts and decodes to the same header and body; base64url decoding accepts only canonical encodings.", "quantifier": "every header and body", "why_tests_cant": "all byte strings", "anchors": ["src/verifier/client.rs: make_jwt", "src/core/authorization_request/mod.rs: validate_request_object_typ"]}
{"id": "C66", "title": "JSON text round trips", "statement": "Printing a JSON value and parsing the text yields the same value for every value of nesting depth at most 127.", "quantifier": "every JSON value", "why_tests_cant": "all values and strings", "anchors": ["serde_json as used throughout src (to_vec, from_slice, from_str)"]}
{"id": "C67", "title": "Example wallet: DCQL matching is sound", "statement": "Every credential the example wallet selects for a credential query has the query's format and, according to the query, one of the listed types, the doctype or the required claims; a successful match covers every credential query.", "quantifier": "every query and credential store", "why_tests_cant": "all stores and queries", "anchors": ["examples/wallet-conformance-adapter/dcql/matcher.rs", "examples/wallet-conformance-adapter/credentials/store.rs"]}
{"id": "C68", "title": "Example wallet: redirect_uri clients are bound to their URI", "statement": "The example wallet answers a redirect_uri client only when the client_id's URI is the URI it will send to.", "quantifier": "every request", "why_tests_cant": "all inputs", "anchors": ["examples/wallet-conformance-adapter/server/handlers/authorization.rs"]}
{"id": "C69", "title": "Direct query parameters cannot convey structured parameters", "statement": "A request whose parameters are given directly in the query string resolves to an object all of whose members are text, so it can never carry client metadata or a DCQL query that the library reads, and it never passes validation in an encrypted response mode.", "quantifier": "every query string, wallet and server", "why_tests_cant": "quantifies over all query strings and all wallets", "anchors": ["src/core/authorization_request/mod.rs: AuthorizationRequest::from_query_params, resolve_request", "src/core/authorization_request/verification/mod.rs: validate_request_against_metadata"]}
{"id": "C70", "title": "Validated requests are authentic, end to end", "statement": "When a wallet delegates a signed client identifier prefix (x509_hash, x509_san_dns, decentralized_identifier) to the library's verification function, every request that validate_request returns for that prefix is exactly the payload of a JWT whose signature verifies under the key the client identifier designates (for DIDs: when the wallet lists no algorithm containing 'none').", "quantifier": "every wallet, server, request, certificate, resolver and signature scheme", "why_tests_cant": "quantifies over all attackers' requests and servers", "anchors": ["src/wallet.rs: validate_request", "src/core/authorization_request/mod.rs: validate, resolve_request", "src/core/authorization_request/verification"]}
{"id": "C71", "title": "JSON form of responses", "statement": "A response converted to JSON and read back is the same response; a JSON object that can be read as an unencoded response is read as one even if it also has a 'response' member (the opposite precedence of the form encoding).", "quantifier": "every response and every JSON object", "why_tests_cant": "all tokens, objects and map orders", "anchors": ["src/core/response/mod.rs: AuthorizationResponse (Serialize, Deserialize, TryFrom<UntypedObject>)"]}
{"id": "C72", "title": "Example wallet: presentations are bound to the request", "statement": "In the VP token of the example wallet every stored SD-JWT is presented with whatever follows its last '~' replaced by a key binding JWT over the rest, carrying exactly the nonce and audience of the request, the time and the SHA-256 hash of the part it covers; other credentials are presented unchanged; there is one entry per selected credential query.", "quantifier": "every selection, nonce, audience, clock value and signing function", "why_tests_cant": "all credential texts, including ones with any number of '~'", "anchors": ["examples/wallet-conformance-adapter/engine/headless.rs: build_vp_token", "examples/wallet-conformance-adapter/crypto/keys.rs: create_key_binding_jwt, compute_sd_hash"]}
{"id": "C73", "title": "Example wallet: encrypted answers", "statement": "The encrypted answer of the example wallet holds exactly the token and the state, is encrypted to the first usable key of the client's metadata and always uses A128GCM, also for a client that lists only other enc values.", "quantifier": "every request, key set, token and state", "why_tests_cant": "all key sets and metadata", "anchors": ["examples/wallet-conformance-adapter/server/handlers/authorization.rs: submit_direct_post_jwt, get_verifier_encryption_key"]}
{"id": "C74", "title": "Example wallet: what is sent", "statement": "Whatever the example wallet POSTs is a token made, for the nonce and client_id of the resolved request, of presentations of stored credentials that satisfy the credential query they are filed under; every credential query is answered; the state is the one of the request object, else the one of the query parameters. Without the user's consent nothing is POSTed and no success is reported.", "quantifier": "every request, server, credential store and signing function", "why_tests_cant": "all requests, stores and servers", "anchors": ["examples/wallet-conformance-adapter/server/handlers/authorization.rs: process_authorization_request", "examples/wallet-conformance-adapter/engine/headless.rs: process_request"]}
{"id": "C75", "title": "Example wallet: direct requests are never answered", "statement": "A request whose parameters are given directly (no request object, no request URI) always ends in an error of the example wallet, without any HTTP traffic.", "quantifier": "every set of direct parameters, endpoint, server and store", "why_tests_cant": "all parameter values", "anchors": ["examples/wallet-conformance-adapter/server/handlers/authorization.rs: build_request_url, process_authorization_request"]}
{"id": "C76", "title": "Example verifier: what its verdicts mean", "statement": "The example verifier reports success for a session only if a response was POSTed to that session which is a vp_token, or is encrypted to its key and decrypts to JSON, and the information it reports is about that response; it reports an error only if an encrypted response was POSTed that its key does not open to JSON; it never reports failure. Success does not mean that anything was presented: an empty vp_token POSTed to any session, in any mode and without state, completes it with success.", "quantifier": "every interleaving of any number of HTTP requests, lock contention and dropped connections; every decryption function and session", "why_tests_cant": "all schedules of concurrent requests and all bodies", "anchors": ["examples/verifier-conformance-adapter/server/handlers.rs: receive_response, get_status", "examples/verifier-conformance-adapter/crypto/jwe.rs: decrypt_jwe"]}
{"id": "C77", "title": "Example verifier: initiating a presentation", "statement": "A successful POST to /initiate stores, under the session id it returns, a request object with exactly the configured members (client id from the certificate's first DNS name, the given nonce or a fresh one, response type, mode, the session's own response URI, the query, and client metadata that carries the encryption key exactly in the encrypted mode), whose JWT is signed with the certificate's key; the returned URL points to the session's own request endpoint. If initiating fails, nothing is stored. It succeeds whenever the key can sign and the URLs can be read back.", "quantifier": "every certificate, key, public URL, mode, nonce, session id and store content", "why_tests_cant": "all configurations and inputs", "anchors": ["examples/verifier-conformance-adapter/server/handlers.rs: initiate_request", "examples/verifier-conformance-adapter/server/state.rs: AppState::new, build_client_metadata, build_dcql_query"]}
{"id": "C78", "title": "Example verifier: endpoints and identifiers", "statement": "A session id handed out leads back to its session; the status endpoint answers with the stored status and changes nothing; the request endpoint answers with the stored request object; the response endpoint answers 200 exactly for readable responses to known sessions, which it then judges once; unknown sessions give 404 or 500 and unreadable requests give 400, without any effect whatever else is going on. The status URL it hands out, however, is not one it answers when the public URL ends in a slash.", "quantifier": "every identifier text, body and store content; for requests without effect, every interleaving", "why_tests_cant": "all texts, bodies and schedules", "anchors": ["examples/verifier-conformance-adapter/server/handlers.rs: get_request_object, receive_response, get_status, initiate_request", "examples/verifier-conformance-adapter/server/mod.rs: create_router"]}
{"id": "C79", "title": "The example wallet answers whenever it can, and the two examples work together", "statement": "If the request given to the example wallet resolves to a signed request object whose credential queries are all met by stored credentials, whose response_uri fits a redirect_uri client, whose response mode is direct_post or direct_post.jwt with a usable key, and the verifier accepts the POST, then the wallet makes exactly one POST, to the response_uri, and reports success. When the request was initiated by the example verifier and the wallet holds an SD-JWT PID, following the authorization URL ends with success in the wallet, with 200 for its POST, and with the verifier's status endpoint reporting success for that session: one credential received, or in the encrypted mode exactly the claims with the wallet's PID, presented for the verifier's client id and nonce.", "quantifier": "every configuration of the verifier (certificate, key, public URL, mode), nonce, session id, state of the store, content of the wallet, HTTP client that reaches the server, clock, signing function and encryption that the key opens", "why_tests_cant": "A conformance run tries one URL, one certificate and one credential; that the two sides agree for every configuration, text and store is a composition of serialisation, resolution, matching and encryption.", "anchors": ["examples/wallet-conformance-adapter/server/handlers/authorization.rs: process_authorization_request", "examples/verifier-conformance-adapter/server/handlers.rs: initiate_request, get_request_object, receive_response, get_status", "examples/verifier-conformance-adapter/server/state.rs: AppState::new"]}
{"id": "C80", "title": "Command line verifier: the request it shows", "statement": "Starting the command line verifier with known credential types and a base URL succeeds and stores exactly one session. Its request object has client_id redirect_uri:<public URL>/response, the response endpoint of the session as response_uri, mode direct_post, a fresh nonce, the query and the metadata; the request JWT is exactly that object with alg none and an empty signature, and can be read back; the URL shown points the wallet to the request endpoint of the session. However the URI in the client_id is never the response_uri, so a wallet that checks that they agree, as the example wallet does, never answers.", "quantifier": "every public URL, list of types, nonce and session id; for the example wallet, every store, HTTP client and parameters that lead to the request object of the session", "why_tests_cant": "all URLs, ids and lists of types; the finding is about every run", "anchors": ["examples/cli-verifier/main.rs: RedirectUriClient, main, create_wallet_metadata", "examples/wallet-conformance-adapter/server/handlers/authorization.rs: process_authorization_request"]}
{"id": "C81", "title": "Command line verifier: the query", "statement": "The query builder accepts exactly the non-empty lists of the five documented type names. The query asks for the credentials of each type in order, with one required credential set per type whose options are the alternatives of the type; every credential asked for is covered by a credential set and every option names a credential asked for; the client metadata list exactly the formats asked for, each with its algorithms. The credential identifiers are distinct when no type is repeated and ldp_or_mdl is not combined with ldp_vc or mdl, and are not always distinct otherwise.", "quantifier": "every list of type names", "why_tests_cant": "unboundedly many lists and combinations", "anchors": ["examples/cli-verifier/main.rs: build_dcql_query_for_types, build_client_metadata"]}
{"id": "C82", "title": "Command line verifier: responses", "statement": "A response POSTed to the command line verifier is answered with 200 exactly when it can be read and its session exists. The session is then complete: successful, with the number and the identifiers of the credentials received, for every vp_token; failed for every encrypted response. No other session changes, and the request of the session stays. Otherwise the answer is an error and nothing changes.", "quantifier": "every session id text, body and store content", "why_tests_cant": "all texts, bodies and stores", "anchors": ["examples/cli-verifier/main.rs: receive_response, get_request_object"]}
{"id": "C83", "title": "Making verifier clients", "statement": "A DID client can be made exactly when the verification method has a fragment and resolves to the signer's own key; it then identifies itself with the DID of the verification method. An x509_san_dns client can be made exactly when the first certificate of the chain has a DNS name in a subject alternative name extension and identifies itself with the first one, in the order of the extensions and of the names in them; an x509_hash client identifies itself with the SHA-256 hash of the encoding of the first certificate. Every JWT a client makes is the request object signed by its signer under a header of exactly the signer's algorithm, the type, and the verification method or the whole chain in order; a JWT is made exactly when the signer has an algorithm and the chain can be encoded.", "quantifier": "every verification method, resolver, chain of certificates, encoder, signer and request object", "why_tests_cant": "all chains, identifiers, keys and resolvers", "anchors": ["src/verifier/client.rs: DIDClient::new, X509SanClient::new, X509HashClient::new, generate_request_object_jwt, make_jwt"]}
{"id": "C84", "title": "Configuring a verifier and its requests", "statement": "A verifier can be built exactly when a client, a session store and a submission endpoint were given, in whatever order and however often. It has the client and the endpoint given last, passes requests as said last (by default in the URL) and has for each parameter the default given last. A request asks the query given last; each of its parameters is what was given last for the request, or else the verifier's default. A parameter that cannot be converted to JSON is dropped silently.", "quantifier": "every sequence of configuration calls and request parameters, of every type", "why_tests_cant": "unboundedly many call sequences", "anchors": ["src/verifier/mod.rs: VerifierBuilder", "src/verifier/request_builder.rs: RequestBuilder::with_dcql_query, with_request_parameter, build"]}
{"id": "C85", "title": "A wallet given a URL", "statement": "Wallet::validate_request returns a request object exactly when the URL is on the wallet's own authorization endpoint (authority and path), the request its query denotes resolves to that object, the metadata checks pass, the one hook for the client identifier prefix accepts it, and the client identifiers inside and outside agree. For any other URL nothing is sent and no hook runs. At most one HTTP request is made, the GET of the request_uri, and at most one hook runs.", "quantifier": "every URL, wallet metadata, HTTP client and hooks", "why_tests_cant": "all URLs and all behaviours of servers and hooks", "anchors": ["src/wallet.rs: Wallet::validate_request", "src/core/authorization_request/mod.rs: from_url, validate", "src/core/authorization_request/verification/mod.rs: verify_request"]}
{"id": "C86", "title": "A presentation with the library on both sides", "statement": "A request that a verifier builds for a wallet's metadata is validated by that wallet when it follows the URL (directly, or fetching the request that the verifier's retrieve_authorization_request gives), when the wallet verifies with the library's own DID or X.509 verification, accepts the algorithm and can answer in the response mode; the wallet then has the very request object stored by the verifier. Its answer is posted to the response endpoint of the session, the verifier reads the same response from the body, the validator is called once with that session and that response, and polling gives what the validator said.", "quantifier": "every builder configuration, session id, store, DID or chain of certificates, signer, response and validator", "why_tests_cant": "composition of all components over all inputs", "anchors": ["src/verifier/request_builder.rs: build_with_session_id", "src/verifier/mod.rs: retrieve_authorization_request, verify_response, poll_status", "src/verifier/client.rs", "src/wallet.rs: validate_request, submit_response", "src/core/authorization_request/verification: did, x509_hash, x509_san"]}
{"id": "C87", "title": "Which JSON is which DCQL query", "statement": "A JSON value is read as a DCQL query exactly when it has the members of one: a non-empty list of credential queries, each with an id and a format (one of the four known names, or any other name), optionally meta (an object, empty when absent, never null), non-empty lists of claims, claim sets and trusted authorities, and flags; optionally a non-empty list of credential sets. Absent and null optional members both mean none, unknown members are ignored, path indices are unsigned and claim values signed 64-bit integers. The query read is then the one denoted, so no JSON denotes two queries.", "quantifier": "every JSON value and every query", "why_tests_cant": "infinitely many accepted and rejected inputs, in both directions", "anchors": ["src/core/dcql_query.rs: DcqlQuery, DcqlCredentialQuery, TrustedAuthoritiesQuery, DcqlCredentialSetQuery, DcqlCredentialClaimsQuery, DcqlCredentialClaimsQueryPath, DcqlCredentialClaimsQueryValue", "src/utils.rs: NonEmptyVec"]}
{"id": "C88", "title": "Concurrent calls are explained by their history", "statement": "However calls of a verifier are interleaved, the session store at any moment holds what the store operations done so far, one after the other, make of an empty map; each operation gave the result that map gives at its place, or found the lock held and did nothing. A poll returns the status, and a retrieve the request JWT, that the session had at a moment during the call. A call that comes in after some moment answers from what it finds after that moment: a status or request it returns was stored in between, and a response it accepts was judged in between for the session as stored in between.", "quantifier": "every interleaving of any number of calls, cancelled anywhere, with any contention and any validator results", "why_tests_cant": "all schedules", "anchors": ["src/verifier/session.rs: MemoryStore", "src/verifier/mod.rs: poll_status, retrieve_authorization_request, verify_response"]}
{"id": "C89", "title": "Calls end and never wait for each other", "statement": "Whatever state a verifier is in, every call in flight can take its next step without waiting for another call; an execution in which no new calls start ends, after at most four steps per call in flight; and all calls in flight can return, in whichever order.", "quantifier": "every reachable state and every schedule", "why_tests_cant": "all schedules; absence of deadlock and livelock", "anchors": ["src/verifier/session.rs: MemoryStore (try_lock)", "src/verifier/mod.rs", "src/verifier/request_builder.rs: build_with_session_id, build_dc_api"]}
{"id": "C90", "title": "Cancelling calls adds no behaviour", "statement": "When calls of a verifier are cancelled (their futures dropped) at any await point, the store and everything that happened are the same as in some execution in which no call is cancelled and those calls are merely still in flight; so nothing is left half done in the store.", "quantifier": "every execution and every set of cancellation points", "why_tests_cant": "all crash points", "anchors": ["src/verifier/session.rs: MemoryStore", "src/verifier/mod.rs: retrieve_authorization_request, verify_response"]}
{"id": "C91", "title": "Digests are SHA-256", "statement": "The digest by which certificates are identified (x509_hash), keys are named (JWK thumbprint), session transcripts are bound to a request and SD-JWT presentations to their contents is the SHA-256 digest as published in FIPS 180-4 (constants from the roots of the primes, padding, schedule and rounds), for every message shorter than 2^61 bytes.", "quantifier": "every message", "why_tests_cant": "test vectors settle finitely many messages", "anchors": ["src/core/authorization_request/verification/x509_hash.rs", "src/verifier/client.rs: X509HashClient", "src/core/iso_18013_7/mod.rs", "examples/wallet-conformance-adapter/server/handlers/authorization.rs"]}
{"id": "C92", "title": "Example wallet: what it says about itself", "statement": "The metadata endpoint of the example wallet serves exactly its endpoint, the SD-JWT format, the response type vp_token, two response modes, the client identifier prefix redirect_uri and the encryption values ECDH-ES and A256GCM; the library reads the text back as wallet metadata saying just that, so a verifier that goes by it builds requests for redirect_uri clients only. But the wallet encrypts with A128GCM always, which it does not list, and answers clients with other prefixes.", "quantifier": "every endpoint, verifier configuration, request and answer", "why_tests_cant": "the discrepancy has to be shown for whatever the wallet encrypts, and the reading back for every endpoint", "anchors": ["examples/wallet-conformance-adapter/server/handlers/metadata.rs: wallet_metadata", "examples/wallet-conformance-adapter/server/handlers/authorization.rs", "src/core/metadata/mod.rs: WalletMetadata", "src/verifier/request_builder.rs: build"]}
{"id": "C93", "title": "Statuses as JSON", "statement": "A session status written as JSON text by the backend is read by the frontend crate as the same status, including cause, reason or information (which == ignores), as long as the information is nested at most 124 deep; different statuses have different texts; and a text is read as a status exactly when it names a waiting status or gives the outcome of a complete one with its one field.", "quantifier": "every status and every text", "why_tests_cant": "information is arbitrary JSON and texts are unbounded", "anchors": ["openid4vp-frontend/src/lib.rs: Status, Outcome"]}
{"id": "C94", "title": "Example verifier: concurrent requests", "statement": "However HTTP requests to the example verifier are interleaved, aborted or timed out, the sessions are what the recorded operations, one after the other, make of an empty map; every answer speaks of a moment at which its request was being handled, and an accepted response was judged by the validator in that time; the server comes to rest after at most four steps per request, and all requests in progress can be answered in any order. A session's status goes back only when a request object fetch that had read the session earlier ends late; so the status endpoint can report success and later that the wallet has not answered.", "quantifier": "every adapter, every interleaving of any number of HTTP requests, dropped anywhere, with any lock contention", "why_tests_cant": "all schedules of unboundedly many requests", "anchors": ["examples/verifier-conformance-adapter/server/handlers.rs", "examples/verifier-conformance-adapter/server/mod.rs", "src/verifier/session.rs: MemoryStore"]}
{"id": "C95", "title": "JSON text is read as RFC 8259 says", "statement": "A text (a request object's payload, a parameter holding JSON, a status) is read as a JSON value exactly when it is a JSON text of RFC 8259 with at most 127 levels of arrays and objects and UTF-8 strings, and then the value is the one the text denotes, the last one when a name is repeated; no text denotes two values; and the UTF-8 check accepts exactly the sequences of encoded Unicode scalar values of RFC 3629, each in one way.", "quantifier": "every byte string", "why_tests_cant": "texts are unbounded in length and nesting", "anchors": ["src/core/authorization_request/mod.rs: from_query_params", "src/core/authorization_request/verification/mod.rs: verify_request", "src/core/response/mod.rs", "openid4vp-frontend/src/lib.rs: Status"]}
{"id": "C96", "title": "Form text is read and written as the URL standard says", "statement": "The fields found in a query string, an authorization request URL or a response body are exactly those application/x-www-form-urlencoded gives it: fields between ampersands, empty ones skipped, name and value split at the first equals sign, plus read as space, valid percent escapes decoded and invalid ones kept, and broken UTF-8 replaced by one U+FFFD per maximal broken piece. Fields are written as the standard says: spaces as plus signs, letters, digits and *-._ as they are, every other byte as an upper-case escape.", "quantifier": "every byte string", "why_tests_cant": "texts are unbounded and every mixture of valid and broken escapes and characters counts", "anchors": ["src/core/authorization_request/mod.rs: from_query_params, to_url", "src/core/response/mod.rs: from_x_www_form_urlencoded, into_x_www_form_urlencoded"]}
{"id": "C97", "title": "Base64 is RFC 4648", "statement": "JWT segments, request identifiers and certificates are decoded exactly when the text is the canonical RFC 4648 text of some bytes (base64url without padding; standard base64 with any number of trailing equals signs for certificates), and what is written is that text, padded to a multiple of four for certificates.", "quantifier": "every byte string and every text", "why_tests_cant": "unbounded lengths and every bit pattern, including non-zero trailing bits", "anchors": ["src/core/authorization_request/verification/x509_san.rs", "src/core/authorization_request/verification/x509_hash.rs", "src/core/authorization_request/verification/did.rs", "src/verifier/client.rs", "src/verifier/request_builder.rs"]}
{"id": "C98", "title": "Which JSON is which parameter", "statement": "Each typed parameter of a request, a response and of wallet and client metadata is held under its registered name; a value is read from it exactly when the member is present and is the JSON the specification gives that parameter (text, list of text, enumerated name, URL text, object, key set, query, formats, VP token), an absent member is told from an unreadable one, and setting the parameter sets that member and leaves every other as it was.", "quantifier": "every parameter, every object and every JSON value, every typed value", "why_tests_cant": "JSON values are unbounded and the claim is about exactly which of them are accepted", "anchors": ["src/core/object/mod.rs: UntypedObject", "src/core/authorization_request/parameters.rs", "src/core/metadata/parameters/wallet.rs", "src/core/metadata/parameters/verifier.rs", "src/core/response/parameters.rs", "src/core/credential_format/mod.rs"]}
{"id": "C99", "title": "Where the code panics", "statement": "Making an X.509 client panics exactly when the certificate chain is empty; the static wallet metadata never panic with a URL parser that reads its scheme back; the command line verifier's unwrapped conversions to non-empty lists never panic, whatever credential types it is given.", "quantifier": "every certificate chain, encoder and signer; every URL parser; every list of type names", "why_tests_cant": "absence of a panic is a claim about all inputs", "anchors": ["src/verifier/client.rs: X509SanDnsClient::new, X509HashClient::new", "src/core/metadata/mod.rs: openid4vp_scheme_static", "src/utils.rs: NonEmptyVec", "examples/cli-verifier/main.rs: build_dcql_query_for_types"]}
{"id": "C100", "title": "The command line verifier while it runs", "statement": "In every interleaving of requests, the command line verifier completes only after a response posted for its own session has been validated; whatever status it prints is true at that moment; it serves only its own session's request object, and acknowledges a response only after its outcome has been recorded; it keeps its one session unchanged but for the status; it stops once. A response handled alone prints exactly that it is being processed and its verdict. It does not hold that the verdict is always printed or recorded before the program ends, nor that 'processing' is shown only for its own session.", "quantifier": "every configuration that starts, every sequence of HTTP requests, every interleaving of their actions, lock contention, cancellation and interruption", "why_tests_cant": "the display, the store and the end of the program race; a test sees a few schedules", "anchors": ["examples/cli-verifier/main.rs: get_request_object, receive_response, AppState, print_status_update, main", "src/verifier/mod.rs: Verifier::verify_response, Verifier::retrieve_authorization_request"]}
{"id": "C101", "title": "The cached certificate", "statement": "The example verifier always signs with a key and presents a certificate that were generated together for its own domain, wherever earlier verifiers stopped and whatever they left in the cache file, provided verifiers sharing a cache file run one at a time or each write is done at once. Once a verifier's certificate is stored, later verifiers for that domain use the same one. A damaged cache never prevents start-up: a file is used exactly if it is text with domain, certificate and key each given once and for this domain, and otherwise what is generated. The file is named after the labels of the domain, so domains without an underscore never share one. It does not hold that different domains never evict each other, nor that concurrent interrupted writes never mix a certificate with another's key.", "quantifier": "every sequence of verifier starts, file operations of any size, interruptions and unreadable files; every domain, certificate and key", "why_tests_cant": "a crash may come after any byte of any write, and histories are unbounded", "anchors": ["examples/verifier-conformance-adapter/server/state.rs: get_or_generate_cert, load_cached_cert, save_cert_to_cache, generate_cert"]}
{"id": "C102", "title": "What the example wallet answers over HTTP", "statement": "The example wallet's server acts only on GET, HEAD and POST to /authorize, on the parameters given there once each, and does exactly what the wallet does for them. It answers 200 (with the verifier's redirect) exactly if the presentation was posted and accepted, 502 exactly if it was posted and refused or undeliverable, 400 or 500 exactly if nothing was posted. Errors carry one of seven codes; access_denied exactly if the request is readable and consent is missing or the credentials do not answer it. The echoed state is the caller's before an answer is made and the request object's after. Everything else is refused without effects: 404, 405, 413, 415, 422 and 400 for repeated parameters. HEAD does all that GET does. It does not hold that 408 means that nothing was delivered.", "quantifier": "every HTTP request (method, path, query, content type, body), every wallet configuration, credential store, verifier behaviour and moment of the timeout", "why_tests_cant": "the table from what happened to status, code and state must hold for every request object, verifier answer and store", "anchors": ["examples/wallet-conformance-adapter/server/routes.rs: create_router", "examples/wallet-conformance-adapter/server/handlers/authorization.rs: authorization_get, authorization_post, process_authorization_request, submit_direct_post, submit_direct_post_jwt, error_response"]}
{"id": "C103", "title": "What the example wallet's replies reveal", "statement": "Whoever calls the example wallet's server and is not the verifier learns nothing about the credentials, the values of their claims or the signing key: all replies, on every route, are the same for any two wallets whose credentials agree in number, format, type, document type and claim names, as long as the verifier answers both alike. The key set page holds the public point and no private member.", "quantifier": "every two credential stores that look alike, every two signing keys and clocks, every HTTP request, every verifier whose answer does not depend on what it is sent", "why_tests_cant": "absence of a leak is a claim about pairs of runs over all stores and requests", "anchors": ["examples/wallet-conformance-adapter/server/routes.rs: create_router", "examples/wallet-conformance-adapter/server/handlers/health.rs: health, debug_config, debug_credentials", "examples/wallet-conformance-adapter/server/handlers/metadata.rs: jwks, wallet_metadata", "examples/wallet-conformance-adapter/crypto/keys.rs: public_jwk"]}
{"id": "C104", "title": "The example wallet as it is shipped", "statement": "A credential file is read as exactly the credentials it describes, in order, or the program stops. Without a public URL the wallet announces the host and port it listens on, with the endpoint /authorize behind it. The wallet as shipped denies a readable request exactly if it was started without consent or some credential query is not for its one credential (its format, and its type listed or else no document type and only its claims); without consent it presents nothing to anybody. Every presentation any such wallet sends carries all disclosures of the credential, whatever claims are asked for: the shipped one always reveals all four claims, with the values listed in its file. So it does not hold that only the claims asked for are revealed. Nor is the announced authorization endpoint always one that is served: a public URL ending in a slash leads to a path without a route.", "quantifier": "every credential file; every command line, every request, every verifier behaviour, signature and clock", "why_tests_cant": "which requests are answered and what is revealed must hold for every query and claim selection", "anchors": ["examples/wallet-conformance-adapter/credentials/store.rs: CredentialStore::with_mock_credentials, parse_format", "examples/wallet-conformance-adapter/credentials.json", "examples/wallet-conformance-adapter/engine/headless.rs: HeadlessEngine::new, build_vp_token", "examples/wallet-conformance-adapter/main.rs: main"]}
{"id": "C105", "title": "What the example verifier answers over HTTP", "statement": "Each handler of the example verifier is called exactly for the requests meant for it: the right method (HEAD counts as GET), the right path with one non-empty segment, percent-decoded to UTF-8, a body within the limit and, for /initiate, JSON of the right shape; any other request is sent back with the status code that says why. In every interleaving of HTTP requests, client disconnections and timeouts the server does what the handlers do in some execution of them: success is reported only after a good response was POSTed to that session's response endpoint and judged, and a request leads only to operations on the session it names, and only to those its endpoint is for. The URLs handed out to wallets are served exactly when the public URL has no directory in its path. But a HEAD request marks the request object as sent although it carries none, and a response answered with a timeout may have been accepted.", "quantifier": "every request (method, path, content type, body), every interleaving, disconnection and timeout, every adapter, key and URL parser", "why_tests_cant": "routing must be right for every path and escape, and what reports mean must hold in every interleaving with timeouts", "anchors": ["examples/verifier-conformance-adapter/server/mod.rs: create_router", "examples/verifier-conformance-adapter/server/handlers.rs: initiate_request, get_request_object, receive_response, get_status, health, AppError"]}
{"id": "C106", "title": "The library's own P-256 signer", "statement": "The signer made from a P-256 key announces exactly that key's public point, and ES256, and signs with it. A client made with it for a DID exists exactly if the DID document lists a JWK equal to that bare key, and then every wallet with the same document and ES256 accepts its requests; a client made with it for a certificate chain has its requests accepted by every wallet that supports ES256 if the leaf certifies that key. But a DID document whose JWK holds the same key and also names its algorithm, use or id is refused; and X.509 clients are made without comparing the certificate's key with the signer's, and then no wallet accepts their requests.", "quantifier": "every signing key, DID document, certificate chain, request body, wallet and roots, for every signature scheme that meets the ECDSA contract", "why_tests_cant": "acceptance must hold for every key and request; that nothing is accepted with a mismatched certificate is a universal statement", "anchors": ["src/verifier/request_signer.rs: P256Signer::new, RequestSigner, JwsSigner", "src/verifier/client.rs: DIDClient::new, X509SanClient::new, X509HashClient::new", "src/core/authorization_request/verification/verifier.rs: P256Verifier"]}
{"id": "C107", "title": "What the example verifier prints at start is what it uses", "statement": "The example verifier runs with the certificate and key obtained for the host of its public URL, as the URL's authority has it without user and port. The configuration it prints is a JSON object with exactly that key (both coordinates and the secret) and that certificate; every request it makes afterwards is stored with the printed client id, is signed with the printed key, names the printed certificate and is accepted by every wallet that supports ES256, if the certificate names the host and certifies the key. It asks for encrypted responses exactly if started with direct_post.jwt. For a public URL without a path the printed endpoints are served, with the printed methods, and the response endpoint is the one wallets are told. But any other response mode silently means plain responses, and with a path in the public URL what is printed is not what is served. With a public URL that names no host the verifier does not start.", "quantifier": "every public URL, mode, certificate, key and URL parser; every nonce, session id and earlier history", "why_tests_cant": "the printed configuration must be right for every key and host and for all later requests", "anchors": ["examples/verifier-conformance-adapter/main.rs: main, print_startup_banner", "examples/verifier-conformance-adapter/server/state.rs: AppState::new, build_oidf_config"]}
{"id": "C108", "title": "Queries and tokens made in memory", "statement": "After any sequence of setter calls and changes through mutable references, each field of a DCQL query, credential query, claims query, credential set or trusted authorities entry holds what was last set for it with the changes since, and edits of other fields have no effect on it; the receiver of the query reads those values. A VP token made by any sequence of insertions holds for each credential query exactly what was inserted last, once. But nothing keeps a caller from setting claim sets without claims, which the documentation forbids and receivers accept.", "quantifier": "every sequence of calls, with all arguments and all functions applied through references", "why_tests_cant": "must hold for every history of edits in every order", "anchors": ["src/core/dcql_query.rs: set_*, *_mut", "src/core/response/parameters.rs: VpToken::with_credential, insert, get, len, is_empty, iter"]}
{"id": "C109", "title": "The command line verifier over HTTP", "statement": "Of all HTTP requests, the command line verifier handles exactly the GET (and HEAD) requests of /request/<id> and the POST requests of /response/<id> with bodies of at most two MiB, with the decoded identifier; all others are sent back with 404, 405, 413, 400 or, for CORS, 200, each in exactly the cases that fit. In every interleaving the server adds nothing to what the handlers do. It completes only after a response was posted to the response endpoint of its session and validated; what the console shows is true of the HTTP requests before; a JWT is sent only in answer to a GET of the request endpoint of the session and is its request; success is reported only for a response that was validated and recorded. The request URI and the response URI it hands out are always served, whatever its public URL, and lead to these ends. But a HEAD request suffices for the console to say that the request was fetched.", "quantifier": "every HTTP request, every interleaving of any number of requests, with losses and interruption, every public URL and every choice of credential types", "why_tests_cant": "must hold for every request and every schedule", "anchors": ["examples/cli-verifier/main.rs: create_router, get_request_object, receive_response, DisplayState, main"]}
{"id": "C110", "title": "What the shipped credential proves", "statement": "The key that the shipped credential of the example wallet is bound to is the public key of the secret in the wallet's source, and the key that the wallet serves. So every presentation it sends, in answer to whatever request, ends in a key binding JWT that verifies under the key its credential names and that holds the nonce and client of the request. But the credential itself proves nothing: its issuer signature is not one of 64 bytes and none of its four disclosures has its digest listed, so no SD-JWT verifier can accept any presentation of the shipped wallet.", "quantifier": "every request, network, clock value, consent setting and every signature scheme that is correct for the holder's key", "why_tests_cant": "must hold for every presentation the wallet can be made to send; the key relation is a computation on the curve", "anchors": ["examples/wallet-conformance-adapter/crypto/keys.rs: HOLDER_KEY, public_jwk, create_key_binding_jwt", "examples/wallet-conformance-adapter/credentials.json", "examples/wallet-conformance-adapter/engine/headless.rs: build_vp_token"]}
{"id": "C111", "title": "Redirects of the library's own HTTP client", "statement": "ReqwestClient sends nothing for a URI that is no http(s) URL. Otherwise it sends the given request and then follows redirects: each later request is made because the answer to the one before names its URL, there are at most one more than the redirect limit, and the answer returned is that to the last and is no redirect it could follow. Method and body reach other URLs only by 307 and 308 answers of servers that got them; after any other redirect only GETs without body and without headers about a body are sent. So a wallet submitting a response sends it first to the response_uri of the request, and validating a request sends only bodiless GETs, of which the answer to the last is the request object. But nothing ties the response to the response_uri: a server there can have the POST repeated, VP token included, to any host over plain HTTP.", "quantifier": "every request, every network (any answer or failure to any request), every URL parser and joiner and every redirect limit", "why_tests_cant": "must hold for every sequence of answers of every server, loops included", "anchors": ["src/core/util/mod.rs: ReqwestClient::new, ReqwestClient::execute", "src/wallet.rs: Wallet::submit_response", "src/core/authorization_request/mod.rs: resolve_request", "examples/wallet-conformance-adapter/server/handlers/authorization.rs: process_authorization_request"]}
{"id": "C112", "title": "Written URLs read back", "statement": "A URL reader that follows the URL standard accepts a text, and reads it as a URL, exactly as the standard prescribes component by component: trimming, scheme, authority with user, host and port, dot segments, escaping of path, query and fragment. When its readers of domain names and IPv6 addresses print what they read in a form they read as the same, what is read from any text is a URL in normal form: lower-case scheme, no default port, no empty password, no dot segments, every component escaped. Every URL in normal form is written as printable ASCII that is read as exactly that URL, so two URLs that were read are equal when they are written the same. The request, response and status URLs that a verifier derives from a base URL read from any text are therefore read by a wallet as they were written; wallet metadata survives being written and read whatever way its endpoint was written; and the two examples work together whatever URL the verifier is started at.", "quantifier": "every text, every URL in normal form, every session id, every reader of host names and IPv6 addresses with that property", "why_tests_cant": "must hold for every text and for every URL that can be made by reading and extending one", "anchors": ["src/wallet.rs: Wallet::submit_response", "src/core/authorization_request/parameters.rs: ResponseUri, RedirectUri", "src/verifier/request_builder.rs: RequestBuilder::build", "src/core/metadata/mod.rs: WalletMetadata", "examples/verifier-conformance-adapter/state.rs: AppState::new"]}
{"id": "C113", "title": "Which URLs can be sent to", "statement": "The HTTP request type the wallet builds its requests with takes a URL of one of the web's schemes, read from any text, exactly when it has at most 65534 characters and no quotation mark, backquote or brace in its authority. So a wallet given such a request or response URL sends exactly one request to exactly that URL, and given any other it sends nothing. A verifier whose base URL is a web URL with a plain host name and at least 46 characters shorter than that limit gives every session URLs that a wallet can send to, and the two examples then work together with nothing else assumed of the URLs.", "quantifier": "every text read as a URL, every wallet, response and session id, every reader of host names and IPv6 addresses as the standard describes them", "why_tests_cant": "must hold for every URL that can be read, at every length", "anchors": ["src/core/authorization_request/mod.rs: AuthorizationRequest::resolve_request", "src/wallet.rs: Wallet::submit_response", "src/verifier/by_reference.rs: ByReference", "examples/verifier-conformance-adapter/state.rs: AppState::new"]}
{"id": "C114", "title": "Where redirects lead", "statement": "A reference found at a web URL, such as the Location of a redirect, is accepted, and means a URL, exactly as the URL standard prescribes: absolute when it names another scheme or its own with two slashes, otherwise resolved against the URL it was found at, component by component. What it means is again in normal form and read as it is written. Unless it names a scheme or starts with two slashes (or backslashes) it keeps scheme, user, host and port. So a wallet with the library's own client submits its response, and fetches request objects, only at the server its request names, until some server it was sent to answers with a redirect that names another place; and everything it sends goes to http or https URLs. The example verifier's endpoints are what \"response\" and \"request\" mean at its public URL: that URL with the last path segment replaced, without query and fragment.", "quantifier": "every base URL read from a text, every reference, network, redirect limit, request and response, every reader of host names and addresses as the standard describes them", "why_tests_cant": "must hold for every Location text and every sequence of answers", "anchors": ["src/core/util/mod.rs: ReqwestClient::execute", "src/wallet.rs: Wallet::submit_response", "src/core/authorization_request/mod.rs: AuthorizationRequest::resolve_request", "examples/verifier-conformance-adapter/server/state.rs: AppState::new"]}
{"id": "C115", "title": "Hosts in URLs", "statement": "Between brackets a URL has exactly an IPv6 address in one of the forms the standards allow (groups of one to four hexadecimal digits, two colons for at least one group of zeros, an IPv4 address at the end); two texts name the same address exactly if they are printed alike, and the printed form is that of RFC 5952 and names that address. Any other host of a web URL is a name: escapes are decoded, letters made small, forbidden characters refused; a name that ends in a number is an IPv4 address in decimal, octal or hexadecimal parts, printed with four numbers, or refused. So no host of a web URL that was read can be taken for two different places, every one is read as it is printed, the HTTP client takes every one that is an IP address, and the verifier's certificate file for it lies inside the cache directory.", "quantifier": "every text, every URL read from it, every mapping of international names that gives allowed names in small letters that it does not change again", "why_tests_cant": "must hold for every way of writing a host", "anchors": ["src/core/authorization_request/parameters.rs: ResponseUri", "src/wallet.rs: Wallet::validate_request", "examples/verifier-conformance-adapter/main.rs: Args", "examples/verifier-conformance-adapter/server/state.rs: AppState::new, get_or_generate_cert"]}
{"id": "C116", "title": "A verifier with any session store", "statement": "Whatever implementation of the session store a verifier is given, each of its calls asks of the store and of the caller's validator exactly a fixed sequence: building stores one session (the one the memory store would get) and nothing if the request cannot be built; polling reads once; fetching the request reads and, only while the session was sent by reference, marks it as sent; verifying a response reads, validates that session with that response and stores that outcome; removing removes. Each call reports success exactly if all these answers were successes, and stops early only by being dropped. If the store keeps sessions (it may fail at any time and let sessions expire), every history is, but for the texts of errors, a history of the memory store in which the expired sessions were removed. If the store merely invents nothing (it may lose sessions, show old versions, fail and still do what it reported as failed), an outcome is only polled after a response to that session was validated with it, a fetched request is one that was built for that session, and a validator is only given a session built under the identifier the response came for.", "quantifier": "every session store (any state, any nondeterministic methods, any change between calls), every interleaving and cancellation of any number of calls", "why_tests_cant": "ranges over all implementations of a trait and all schedules", "anchors": ["src/verifier/session.rs: SessionStore (its remove_session is called directly)", "src/verifier/mod.rs: Verifier::retrieve_authorization_request, Verifier::verify_response, Verifier::poll_status", "src/verifier/request_builder.rs: RequestBuilder::build_with_session_id, build_dc_api"]}
{"id": "C117", "title": "What wallet and verifier agree on in a hostile network", "statement": "Let a verifier serve any number of concurrent calls with any session store, and let a wallet that verifies with the library's own x509_hash or DID verification be given any URL and any answers of the network. If the wallet validates a request for the client identifier of the verifier's certificate (or of its DID, when the wallet lists no algorithm containing none), then it holds the very request object of a session the verifier built (its nonce, query, response endpoint and client metadata), unless it was given a JWT with a valid signature under the verifier's key on something the verifier never signed, or another certificate with the same SHA-256 hash. Its answer then goes, if anywhere, to the response endpoint of that session, and an encrypted answer is encrypted to a key of the client metadata the verifier's builder was given. For x509_san_dns this does not hold: a self-issued certificate with the verifier's DNS name is enough, whatever roots the wallet trusts.", "quantifier": "every history of the verifier, every session store, every behaviour of the network and every authorization request, wallet metadata and response", "why_tests_cant": "ranges over everything an attacker can send and every interleaving on the verifier's side", "anchors": ["src/wallet.rs: Wallet::validate_request, submit_response", "src/core/authorization_request/verification/x509_hash.rs: validate", "src/core/authorization_request/verification/x509_san.rs: validate", "src/core/authorization_request/verification/did.rs: verify_with_resolver", "src/verifier/request_builder.rs: build_with_session_id, build_dc_api", "src/core/jwe.rs: build_encrypted_response"]}
{"id": "C118", "title": "What stands on the console of the command line verifier", "statement": "Whatever is sent to the command line verifier while it runs, and in whatever order the requests' output is interleaved, every line on its console is one of the program's own messages or a line of indented JSON: nobody can make it show a line of their choosing, and the console holds no ASCII control character below space other than line ends. A line that announces a success or a failure stands there only if a response posted for this session was judged so; one that says the request was fetched only if the session was fetched for a request to its request endpoint; one that says the verification is complete only if the program has completed after judging a response. What is printed with a success is JSON text that reads back as the number of entries and the query identifiers of a judged response (with fewer than 2^64 entries). Control characters beyond ASCII are not escaped: a posted query identifier with U+009B reaches the terminal as it is.", "quantifier": "every execution (any number of concurrent requests with any content), every interleaving of the printed calls, every setup", "why_tests_cant": "ranges over all request contents and all interleavings", "anchors": ["examples/cli-verifier/main.rs: print_status_update, main, handle_response, handle_request"]}
{"id": "C119", "title": "The order of the members of JSON objects does not matter", "statement": "serde_json keeps the members of an object sorted by name, or, when any crate of the program switches on preserve_order, in order of insertion. Both kinds of object hold the same members after any sequence of insertions and removals; both read the same texts, to the same values but for the order, and what one writes the other reads as the same value. For two request objects or wallet metadata objects that differ only in the order of members, at any depth: both are refused with one error or both accepted with equal fields; the wallet's check of the request against its metadata has the same result; the credential query is the same but for the order inside meta, and the example wallet selects the same credentials; an encrypted answer is built with the same key, algorithm, method and content; a presentation is read from both or from neither and holds the same items under each identifier. The exception: the designation of a claim format the library does not know is the first member name, so one text gives different formats in the two builds.", "quantifier": "every sequence of map operations, every text, every pair of JSON values of any depth that differ only in member order, every URL parser, key check, cipher, credential store", "why_tests_cant": "tests are built with one kind of map only, and the values and orders are unbounded", "anchors": ["Cargo.toml: serde_json", "src/core/object/mod.rs: UntypedObject", "src/core/authorization_request/mod.rs: AuthorizationRequestObject", "src/core/authorization_request/verification/mod.rs: validate_request_against_metadata", "src/core/metadata/mod.rs: WalletMetadata", "src/core/dcql_query.rs", "src/core/jwe.rs: find_encryption_jwk, build_encrypted_response", "src/core/credential_format/mod.rs: ClaimFormat::designation", "examples/wallet-conformance-adapter/dcql/matcher.rs"]}
{"id": "C120", "title": "Numbers that are not integers decide nothing", "statement": "serde_json turns a JSON number that is no 64-bit integer into an f64 when it reads it, writes that f64 instead, and refuses a number out of range. Whatever that conversion does: a text that is no JSON stays refused; a text that is read gives the same value but for those numbers, exactly the same one if its numbers are integers; if no number is refused no text is. Request objects and wallet metadata that differ only in such numbers, at any depth, are both refused with one error or give equal fields; the wallet's check against its metadata has the same result; the credential query is the same but for numbers inside meta, and the example wallet selects the same credentials; a presentation is read from both or from neither with the same items but for the numbers. But an object presented as a credential is not passed on as written: its 1.10 leaves as 1.1.", "quantifier": "every conversion of number texts (any function, possibly refusing), every text, every pair of JSON values of any depth that differ in such numbers and member order, every URL parser and credential store", "why_tests_cant": "ranges over all conversions and all values of unbounded depth", "anchors": ["Cargo.toml: serde_json", "src/core/authorization_request/mod.rs: AuthorizationRequestObject", "src/core/metadata/mod.rs: WalletMetadata", "src/core/dcql_query.rs", "src/core/response/parameters.rs: VpToken, VpTokenItem", "src/core/authorization_request/verification/mod.rs: validate_request_against_metadata"]}
{"id": "C121", "title": "Members outside the parameters decide nothing, dates and audience included", "statement": "Of a request object only client_id, client_metadata, dcql_query, nonce, redirect_uri, response_mode, response_type, response_uri and state matter, of the client metadata in it only jwks and encrypted_response_enc_values_supported, of the wallet's metadata only four lists. Whatever else two request objects hold: both are refused with one error or both give the same fields; the wallet's check against its metadata, the credential query, the state and the encrypted response are the same. If a signed request object is accepted by DID or certificate verification, or validated by a wallet as a whole, then so is any other with the same header and these parameters signed by the same signer, and the same HTTP requests are made. The example wallet answers both to the last byte alike. So it does not hold that an outdated request, or one for another audience, is refused: exp, nbf, iat, aud, iss and jti are never looked at.", "quantifier": "every pair of request objects that agree on these parameters, every header, signature scheme, resolver, certificate decoder, wallet with any verification hooks that take the two JWTs alike, URL parser, network and credential store", "why_tests_cant": "all contents of all other members, at every place a request can come from; that a member is never read cannot be shown by examples", "anchors": ["src/core/authorization_request/mod.rs: TryFrom<UntypedObject>, resolve_request, validate", "src/core/authorization_request/verification/mod.rs: validate_request_against_metadata, verify_request", "src/core/authorization_request/verification/did.rs: verify_with_resolver", "src/core/authorization_request/verification/x509_san.rs, x509_hash.rs: validate", "examples/wallet-conformance-adapter/server/handlers/authorization.rs: process_authorization_request"]}
{"id": "C122", "title": "Concurrent calls act as if executed one at a time", "statement": "If session ids are not shared, the validator does not depend on the status of the session it is given, and no request is marked as sent after its response was judged, then any interleaving of calls of the verifier's entry points leaves the store that the calls which took effect leave when each is executed alone, one after the other, in the order in which they took effect; every call that did not find the lock held gives the answer it gives there, and takes effect between its start and its return. The last condition is met when no retrieval of a request is under way while a verdict on its response is recorded. Without the condition this fails: a retrieval overlapping a response can leave a store that no order of the calls leaves.", "quantifier": "every reachable state of every interleaving of any number of calls, with cancellation and lock contention", "why_tests_cant": "all schedules of any number of concurrent calls", "anchors": ["src/verifier/mod.rs: poll_status, retrieve_authorization_request, verify_response", "src/verifier/session.rs: MemoryStore", "src/verifier/request_builder.rs: build, build_dc_api"]}
{"id": "C123", "title": "Example verifier: HTTP requests act as if served one at a time", "statement": "If session ids are not shared and no request is marked as sent after its response was judged, then any interleaving of HTTP requests to the example verifier leaves the sessions that the requests which took effect leave when each is served alone, one after the other, in the order in which they took effect. Every request gets the answer it gets there, and takes effect between its start and its answer, unless it found the lock of the store held and was answered with an error, or gets this answer whatever the sessions. The last condition is met when no fetch of a request object is under way while a verdict on the response to it is recorded. Without the condition this fails: a fetch of the request object overlapping a response can leave sessions that no order of the requests leaves.", "quantifier": "every adapter, every reachable state of every interleaving of any number of HTTP requests, with dropped requests and lock contention", "why_tests_cant": "all schedules of unboundedly many requests", "anchors": ["examples/verifier-conformance-adapter/server/handlers.rs", "examples/verifier-conformance-adapter/server/mod.rs", "src/verifier/session.rs: MemoryStore"]}
{"id": "C124", "title": "Declaring more support never refuses more", "statement": "A wallet that declares more (client identifier prefixes, signing algorithms, longer encryption lists or none, the same endpoint) and whose hooks refuse nothing more validates every request it validated before, to the same request object and with the same HTTP requests and hooks; the library's own DID and X.509 verification accept what they accepted, also when more DIDs are trusted; a verifier builds for it every request it built before, with the same URL and session. Adding signing algorithms or prefixes with the library's methods is such a change. The example wallet finds credentials for every query it could serve before it got more credentials. Naming encryption algorithms for the first time, however, is a restriction.", "quantifier": "every pair of wallet metadata of which the second declares at least what the first does, every URL, HTTP client, hooks, resolver, JWT, builder, query and store", "why_tests_cant": "a monotonicity claim compares two runs for every pair of configurations and every request", "anchors": ["src/core/metadata/mod.rs: add_request_object_signing_alg_values_supported, add_client_id_prefixes_supported", "src/core/authorization_request/verification/mod.rs: validate_request_against_metadata, verify_request", "src/core/authorization_request/verification/did.rs: verify_with_resolver", "src/core/authorization_request/verification/x509_hash.rs: validate", "src/core/authorization_request/verification/x509_san.rs: validate", "src/verifier/request_builder.rs: build_with_session_id", "examples/wallet-conformance-adapter/dcql/matcher.rs: match_query"]}
{"id": "C125", "title": "With any session store that keeps sessions, concurrent calls act as if executed one at a time", "statement": "Take any implementation of the session store that either does what its methods say or fails and changes nothing, and that may let sessions expire. If session ids are not shared, the validator does not depend on the status of the session it is given and no session is marked as sent after a verdict on it was recorded, then any interleaving of calls leaves the sessions that the successful calls leave when each is executed alone on the memory store, one after the other, in the order in which they took effect, with removals in between for the sessions that expired (and with none when sessions do not expire). A call takes effect at most once, exactly once when it succeeds and not at all when it fails; it does so between its start and its return, and its answer is the one it gives at that place in the sequence. A crash of the process at any point, the store surviving it, adds nothing to these executions.", "quantifier": "every session store, every schedule of calls with cancellations, crashes of the process, failures of the store and expiries, every validator meeting the condition", "why_tests_cant": "the store is supplied by the user of the library, and the claim ranges over all stores, failures and interleavings", "anchors": ["src/verifier/session.rs: SessionStore", "src/verifier/mod.rs: retrieve_authorization_request, verify_response, poll_status", "src/verifier/request_builder.rs: build_with_session_id, build_dc_api"]}
{"id": "C126", "title": "Fresh session identifiers and nonces", "statement": "The identifiers the library makes for sessions (and the nonces the example verifiers make) are version 4 UUIDs whose text reads back; with random bits all version 4 UUIDs are equally likely, so whoever names g identifiers meets a fresh one with probability at most g/2^122, a fresh request takes the place of one of k stored sessions with probability at most k/2^122, and n fresh identifiers are pairwise distinct but with probability n(n-1)/2^123. Calls with fresh identifiers that do not collide never give two requests the same identifier, whatever the interleaving and the session store.", "quantifier": "every random word, every number of draws, every set of guesses, every store and schedule", "why_tests_cant": "a test sees a few random identifiers; the claim counts all random words and all sequences of them", "anchors": ["src/verifier/request_builder.rs: build, build_dc_api", "examples/verifier-conformance-adapter/server/handlers.rs: initiate", "examples/cli-verifier/main.rs"]}
{"id": "C127", "title": "Whoever does not know a session id learns and changes nothing", "statement": "Two parties use the example verifier's HTTP server at the same time. The first only sends requests about its own session, whose id is drawn at random; the second sends whatever it likes, concurrently and depending on everything done for it so far. Unless the second party happens to name the first one's id, everything done for it, answers included, is the same as if the first party and its session did not exist, and everything done for the first party, and its session, is the same as if the second did not exist. The fraction of random draws for which the second party happens to name the id is at most q / 2^122 when it sends q requests.", "quantifier": "every strategy of both parties (functions of the time and of everything done for their own requests), every interleaving, every length, every random word", "why_tests_cant": "all adaptive strategies and interleavings, and a probability over 2^128 draws", "anchors": ["examples/verifier-conformance-adapter/server/handlers.rs", "src/verifier/mod.rs", "src/verifier/session.rs", "src/verifier/request_builder.rs"]}
{"id": "C128", "title": "What can be seen of a request passed by reference", "statement": "The authorization URL (or QR code) of a request passed by reference is the same whatever is asked for, with whatever nonce, query and parameters: it depends on the client identifier, the address requests are fetched from, the session id and the wallet's endpoint only, and its length is bounded by theirs. Passed by value, different request objects never give the same URL. The example verifier's answer to the one who starts a presentation does not depend on the nonce either.", "quantifier": "every pair of builder configurations, queries, nonces, parameters, stores and session ids", "why_tests_cant": "compares two executions for all pairs of inputs", "anchors": ["src/verifier/request_builder.rs", "src/core/authorization_request/mod.rs", "examples/verifier-conformance-adapter/server/handlers.rs"]}
{"id": "C129", "title": "Repeating and reordering requests does not matter", "statement": "Requests to the example verifier's HTTP server may be delivered more than once, and in another order: when each session is started once, gets one response only (however often) and no request is answered with an error, the sessions left depend only on which requests there were, also when they are served at the same time in any interleaving in which none is dropped and no fetch is marked after the verdict. A fetch, a response or a status request delivered again directly afterwards gets the same answer and changes nothing. With two different responses to one session the order does matter.", "quantifier": "every pair of histories over the same set of requests, every number of deliveries, every order and interleaving, every configuration, URL parser and decryption", "why_tests_cant": "compares all pairs of histories of any length and all interleavings", "anchors": ["examples/verifier-conformance-adapter/server/handlers.rs", "src/verifier/mod.rs", "src/verifier/session.rs"]}
{"id": "C130", "title": "A presentation in the company of others", "statement": "A party that sends its requests about one session to the example verifier one after the other gets exactly the answers it would get from a server nobody else uses, and its session ends in the same state, whatever other parties do in between, concurrently and adaptively, as long as they do not name the session; five turns for each request are enough. With a random session id others can disturb it for at most a fraction q / 2^122 of the draws when they send q requests. So a presentation between the example wallet and the example verifier, from its start to the status saying success, ends well in any such company.", "quantifier": "every history of a party, every strategy of the others, every interleaving, every random word, every configuration", "why_tests_cant": "all strategies and interleavings of others", "anchors": ["examples/verifier-conformance-adapter/server/handlers.rs", "examples/wallet-conformance-adapter/server/handlers/authorization.rs", "src/verifier/mod.rs", "src/verifier/session.rs"]}
{"id": "C131", "title": "How a request is passed makes no difference", "statement": "A request object passed by reference is treated exactly as if it had been passed by value: when the request URI is answered with success and the object, any wallet calls the same hooks with the same arguments and comes to the same result, after one GET of the request URI, and it accepts by reference nothing that it would not accept by value. The example wallet then sends the same response to the same place. Verifiers that differ only in the way of passing keep the same request object, JWT and query for a session, and a wallet that follows either URL ends the same way.", "quantifier": "all wallets (metadata, hooks, HTTP clients), client ids, request URIs and JWTs; all builders, session ids, wallet metadata and stores; all example wallet stores, parameters and endpoints", "why_tests_cant": "two whole paths through the wallet must agree for every request object, every hook and every answer of the network, also for those that fail", "anchors": ["src/core/authorization_request/mod.rs: resolve_request", "src/core/authorization_request/verification/mod.rs: verify_request", "src/wallet.rs: validate_request", "src/verifier/request_builder.rs: build_with_session_id", "examples/wallet-conformance-adapter/server/handlers/authorization.rs: process_authorization_request"]}
{"id": "C132", "title": "What an encrypted answer shows on the network", "statement": "When a request asks for an encrypted answer, there are one JWE header and one key, fixed by the request, such that any two wallets, whatever credentials they hold, whatever they sign with and whatever time it is, make exactly the same traffic (addresses, headers, bodies and their order, also after the answer), unless only one of them answers at all or two JWEs made with that header and key have been told apart. Wallets whose credentials look alike from outside never differ in answering either. The same holds for answers encrypted and submitted with the library. Requests for a plain answer have no such protection.", "quantifier": "all requests, pairs of credential stores, signing functions, clocks and consent settings of the example wallet; all pairs of VP tokens and states for the library; all networks and verifiers, which may react to what they see; all encryption functions", "why_tests_cant": "absence of a leak is a claim about all pairs of runs, against every network that reacts to what it sees", "anchors": ["examples/wallet-conformance-adapter/server/handlers/authorization.rs: submit_direct_post_jwt, process_authorization_request", "src/core/jwe.rs: JweBuilder, build_encrypted_response", "src/wallet.rs: submit_response"]}
{"id": "C133", "title": "How many sessions are kept", "statement": "At every moment of every execution with concurrent and cancelled calls, a verifier keeps at most one session for each session id it has stored one under, and no fewer than that number less the number of removals: no other call makes or loses a session. The example verifier never removes one: it keeps a session for exactly the ids ever started, also for presentations that ended long ago, so the number kept grows without bound with the requests to start one, which anybody may send.", "quantifier": "all executions of the library's verifier and of the example verifier's server; all configurations under which a presentation can be started; all numbers of presentations up to the number of session ids", "why_tests_cant": "a bound (and the absence of one) over all executions and all numbers of sessions", "anchors": ["src/verifier/session.rs: SessionStore, MemoryStore", "src/verifier/mod.rs: Verifier", "examples/verifier-conformance-adapter/server/handlers.rs", "examples/verifier-conformance-adapter/server/mod.rs"]}
{"id": "C134", "title": "Holding more never answers less", "statement": "A query the example wallet can answer it can still answer after it has received further credentials, wherever they are put in its store; what it gave before from the front of the store it gives again when new ones are added at the end. A wallet that holds more answers every request a wallet holding less answers with credentials, and a query asking for fewer credentials is answered whenever the longer one is. For every id it gives the credentials chosen for the credential queries with this id, in their order, each the first in the store that satisfies its query. Within one credential query, however, asking for less may get refused: without the list of types the claims are looked at.", "quantifier": "all stores of credentials, all additions, all queries, all requests and all behaviours of the network", "why_tests_cant": "a comparison of two runs over all stores, all additions and all queries", "anchors": ["examples/wallet-conformance-adapter/dcql/matcher.rs", "examples/wallet-conformance-adapter/credentials/store.rs", "examples/wallet-conformance-adapter/server/handlers/authorization.rs"]}
{"id": "C135", "title": "How parameters are written makes no difference", "statement": "Two authorization URLs at the same place that give the same values for every parameter name make a wallet do exactly the same, however the characters are escaped, wherever the parameters stand among each other and however many empty fields there are. The example wallet's authorization endpoint looks at its nine parameters only, and verifiers at the three of a response only: requests that agree on these are answered alike, with the same effects. The URL the example wallet makes of a request says what its endpoint's own query says followed by what the request says and nothing else; so an own query about other things has no effect on requests that come as an object or a link, but an own query that names a client makes it refuse all requests that name one.", "quantifier": "all URLs, queries and bodies; all wallets, hooks and behaviours of the network; all endpoints", "why_tests_cant": "equality of behaviour for all pairs of texts that mean the same by the URL standard", "anchors": ["src/core/authorization_request/mod.rs: AuthorizationRequest::from_url", "src/core/response/mod.rs: AuthorizationResponse::from_x_www_form_urlencoded", "examples/wallet-conformance-adapter/server/handlers/authorization.rs: build_request_url"]}
{"id": "C136", "title": "How large things get", "statement": "Reading never makes things larger than what was sent, up to a constant factor: a JSON value is no larger than its text, the fields of a form at most three times as large as its text, a request object no larger than the token it came in, a direct request at most four times as large as its query, a response at most three times as large as its body. Writing makes them larger by a constant factor only: JSON at most twenty-five times, forms at most three times, responses accordingly. The example wallet gives exactly as many copies of credentials as there are credential queries; and so, of this kind of bound, none holds for it: a request of 34 + 21 n bytes gets n + 1 copies of a credential, however large it is.", "quantifier": "all texts, values, forms, requests, responses, stores and queries", "why_tests_cant": "bounds over all inputs of all sizes", "anchors": ["src/core/authorization_request/mod.rs", "src/core/response/mod.rs", "src/core/response/parameters.rs", "examples/wallet-conformance-adapter/dcql/matcher.rs"]}
{"id": "C137", "title": "What the example verifier's log tells", "statement": "Keeping the log changes nothing: the server reaches the same states with it. At the default level the log says nothing of the presentations of an unencrypted response beyond which queries it answers and with how many presentations: the same history with other presentations, under any schedule, leaves the same lines, sessions and answers. It is an audit trail: no session has a verdict unless the log says that a response was received and validated for it, and it says that a session was created exactly when the caller was told so. Three things one would expect fail: the token of an encrypted response is logged decrypted at the default level; whatever level is asked for, the whole body of every response is logged; and a session can be stored of which no line speaks.", "quantifier": "all histories of requests, all schedules, dropped requests, contended stores, bodies, keys and levels", "why_tests_cant": "equality of the logs of all pairs of histories, over all interleavings", "anchors": ["examples/verifier-conformance-adapter/main.rs: main", "examples/verifier-conformance-adapter/server/handlers.rs: initiate_request, get_request_object, receive_response, get_status"]}
{"id": "C138", "title": "What the example wallet's log tells", "statement": "Wallets that differ only in the text of the credentials they hold, in the signing key and in the clock leave the same log at every level, but for the size of the answer, whenever the network answers without regard to bodies; at the default level not even the size shows. The parameters of a request, with its nonce and state, are attached to every line. A request fails exactly when the log reports a failure, and something is sent to the verifier exactly when a line gives its size. But a verifier that refuses an answer and sends it back gets it written to the wallet's log, at the default level.", "quantifier": "all requests, stores of credentials, keys, clocks, configurations and behaviours of the network", "why_tests_cant": "equality of the logs of all pairs of wallets, for all requests", "anchors": ["examples/wallet-conformance-adapter/server/handlers/authorization.rs: authorization_get, authorization_post, process_authorization_request, submit_direct_post, submit_direct_post_jwt", "examples/wallet-conformance-adapter/engine/headless.rs: process_request, build_vp_token", "examples/wallet-conformance-adapter/dcql/matcher.rs: match_query"]}
{"id": "C139", "title": "The command line verifier acts as if it attended to one request at a time", "statement": "If the request is not marked as sent after a verdict on the response was recorded, then any interleaving of HTTP requests to the command line verifier, wherever it is stopped, leaves the session that the requests which took effect leave when each is attended to alone, one after the other, in the order in which they took effect. Every request gets the answer it gets there, and takes effect between its arrival and its answer, unless it found the lock of the store held and was answered with an error, or gets this answer whatever the session. The condition is met when no fetch of the request is under way while a verdict on the response to it is recorded. Without the condition this fails: a fetch overlapping a response can undo the recorded verdict, which no order of the two requests does.", "quantifier": "all public URLs, query types, random values, all sequences of requests, all interleavings of their actions, all moments at which a request is dropped or the program is stopped, all patterns of contention for the lock", "why_tests_cant": "A test runs a few schedules; the claim is about every interleaving and compares it with a sequential execution.", "anchors": ["examples/cli-verifier/main.rs:get_request_object", "examples/cli-verifier/main.rs:receive_response", "src/verifier/mod.rs:Verifier::retrieve_authorization_request", "src/verifier/mod.rs:Verifier::verify_response", "src/verifier/session.rs:MemoryStore"]}
{"id": "C140", "title": "What the library's own log tells", "statement": "What the library logs while it encrypts a response depends on the request alone: of the presentations and the state it tells nothing except that the response could be built. For a response that was built, the key, the key identifier and the content encryption the log names are those that were used; every key of the verifier before it has one entry with the reason why it was not used, and there is a warning exactly when the key used does not say what it is for. There is a warning about the typ header exactly when a request object is accepted that would be refused but for the redirect_uri prefix. The check of a certificate's names is logged as it happens: each alternative name in order up to the first that is the client's, or all of them when the request is refused for lack of one; for certificate hashes, the expected and the computed one. A verifier set up with a certificate logs the names it passed over. It fails that every line of the log is the library's: whoever makes a request can put any line into the wallet's log.", "quantifier": "all requests, presentations, states, key sets, encryption functions, certificates and their extensions, headers, and all ways of formatting external types", "why_tests_cant": "That the log reveals nothing compares the runs on all presentations with each other; that it tells the truth must hold for every key set and certificate.", "anchors": ["src/core/jwe.rs:find_encryption_jwk", "src/core/jwe.rs:build_encrypted_response", "src/core/authorization_request/mod.rs:validate_request_object_typ", "src/core/authorization_request/parameters.rs:ClientMetadata::resolve", "src/core/authorization_request/verification/x509_san.rs:validate", "src/core/authorization_request/verification/x509_hash.rs:validate", "src/verifier/client.rs:X509SanDnsClient::new"]}
{"id": "C141", "title": "The library's log over a whole request", "statement": "The library's log of a request that the wallet accepts tells how it was accepted, in order: a warning about the typ header exactly when the request object does not have the right one, which only happens for a redirect_uri client identifier; a warning exactly when the request came without client metadata; then what the check of the client identifier logs. Whatever arrives, the library adds at most two lines before that check is called, both warnings, and lines of a check appear only if it was called. Of a request that cannot be read it tells nothing but the warning about the request object the wallet really obtained; of one whose prefix is not supported, not even whether it had client metadata. When a wallet that uses the library's check accepts a request for a certificate hash, the log ends with the certificate and with the hash in the client identifier, as expected and as computed. The log is the same whether the request object came in the request or was fetched. Request objects signed by the library's own clients never cause the warning about the typ header. When the example wallet answers a request, the log is the same for wallets whose credentials differ in their text only, and of any wallet it tells one bit at most: the request and the network alone fix two logs, one the beginning of the other, and every holder has one of them.", "quantifier": "all requests, networks, wallets, checks and what they log, signers and certificate chains, and all stores of credentials", "why_tests_cant": "The log must tell the truth about every request, and that it does not tell about the holder compares the runs of all wallets with each other.", "anchors": ["src/core/authorization_request/mod.rs:AuthorizationRequest::validate", "src/core/authorization_request/mod.rs:AuthorizationRequest::resolve_request", "src/core/authorization_request/verification/mod.rs:verify_request", "src/core/authorization_request/parameters.rs:ClientMetadata::resolve", "src/verifier/client.rs:make_jwt", "examples/wallet-conformance-adapter/server/handlers/authorization.rs:process_authorization_request"]}
