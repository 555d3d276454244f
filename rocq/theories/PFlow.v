(** whole presentations (C85, C86) *)
From Coq Require Import Lia.
From Verif Require Import Base BaseFacts Utf8 Utf8Facts Json JsonFacts JsonText JsonTextFacts Base64 Base64Facts Sha256 Serde Url UrlEncoded UrlEncodedFacts
  Object Formats Params Metadata Dcql Effects Jwt Request Verify Did X509 SpecCert CertFacts Client Response Session Builder Wallet.
From Verif Require Import MapFacts Spec SpecObject SpecRequest SpecVerify SpecResponse SpecWallet SpecBuilder SpecSession StoreFacts ParamFacts PfParams PfText SpecConfig
  PfRequest PfResolve PfVerify PfDid PfX509 PfClient PfResponse PfWallet PfBuilder PfSession PfExample PfConfig SpecFlow.
From Verif Require Import PfFlow.

(** C85: a wallet given a URL validates exactly the request objects that the URL conveys: the URL is on the wallet's own
    endpoint, the request that its query denotes resolves to the object, the metadata checks pass, the one hook for the
    client identifier prefix accepts it, and the client identifiers agree. *)
Theorem c85_validated
  : forall (url_parse : string -> option url) (ssi_header : obj -> option bool) (uri_ok : string -> bool)
      (w : wallet) (u : url) (a : aro),
    snd (validate_request url_parse ssi_header uri_ok w u) = Ok a <->
    exists r jwt h,
      addressed url_parse u (wm_endpoint (w_metadata w)) r
      /\ snd (resolve_request url_parse ssi_header uri_ok (w_http w) r) = Ok (a, jwt)
      /\ metadata_accepts (w_metadata w) a /\ hook_of_prefix (ro_scheme a) h /\ w_hook w h a jwt = Ok tt
      /\ same_client r a.
Proof. exact c85_validated_pf. Qed.
Print Assumptions c85_validated.

Example c85_validated_witness :
  is_ok (snd (validate_request simple_parse any_header (fun _ => true) (url_wallet ["x509_san_dns"]) (url_request "openid4vp://w/auth"))) = true.
Proof. exact c85_validated_ex. Qed.

(** C85: nothing at all happens for a URL that is not on the wallet's endpoint or that repeats client_id: no HTTP
    request, no hook, and an error. *)
Theorem c85_silent
  : forall (url_parse : string -> option url) (ssi_header : obj -> option bool) (uri_ok : string -> bool)
      (w : wallet) (u : url),
    ~ (exists r, addressed url_parse u (wm_endpoint (w_metadata w)) r) ->
    exists e, validate_request url_parse ssi_header uri_ok w u = ([], Err e).
Proof. exact c85_silent_pf. Qed.
Print Assumptions c85_silent.

Example c85_silent_witness :
  validate_request simple_parse any_header (fun _ => true) (url_wallet ["x509_san_dns"]) (url_request "openid4vp://other/auth")
  = ([], Err "unexpected authority")
  /\ validate_request simple_parse any_header (fun _ => true) (url_wallet ["x509_san_dns"]) (url_request "openid4vp://w/other")
  = ([], Err "unexpected path")
  /\ validate_request simple_parse any_header (fun _ => true) (url_wallet ["x509_san_dns"]) (toy_url "openid4vp://w/auth?client_id=a&client_id=b")
  = ([], Err "duplicate field `client_id`").
Proof. exact c85_silent_ex. Qed.

(** C85: whatever the URL, at most one HTTP request is made, the GET of the request URI in the URL, and at most one hook
    runs, on the resolved request object and for its client identifier prefix. *)
Theorem c85_effects
  : forall (url_parse : string -> option url) (ssi_header : obj -> option bool) (uri_ok : string -> bool)
      (w : wallet) (u : url),
    let events := fst (validate_request url_parse ssi_header uri_ok w u) in
    (http_events events = []
     \/ exists r at_, addressed url_parse u (wm_endpoint (w_metadata w)) r /\ ar_indirection r = ByReference at_
          /\ http_events events = [mk_req "GET" (url_str at_) [("Prefer", "OID4VP-1.0.0")] EmptyString])
    /\ (hook_events events = []
        \/ exists r a jwt h, addressed url_parse u (wm_endpoint (w_metadata w)) r
             /\ snd (resolve_request url_parse ssi_header uri_ok (w_http w) r) = Ok (a, jwt)
             /\ metadata_accepts (w_metadata w) a /\ hook_of_prefix (ro_scheme a) h
             /\ hook_events events = [(h, a, jwt)]).
Proof. exact c85_effects_pf. Qed.
Print Assumptions c85_effects.

Example c85_effects_witness :
  length (hook_events (fst (validate_request simple_parse any_header (fun _ => true) (url_wallet ["x509_san_dns"]) (url_request "openid4vp://w/auth")))) = 1
  /\ length (http_events (fst (validate_request simple_parse any_header (fun _ => true) (url_wallet ["x509_san_dns"])
       (toy_url "openid4vp://w/auth?client_id=x509_san_dns%3Av.example&request_uri=https%3A%2F%2Fv.example%2Fr")))) = 1.
Proof. exact c85_effects_ex. Qed.

(** C86: a request that a verifier built for the wallet's metadata is validated by the wallet when it follows the URL,
    and gives the wallet the very request object that the verifier stored, if the wallet's hook for the client's prefix
    accepts it and the wallet can answer in the response mode. *)
Theorem c86_validated
  : forall (url_parse : string -> option url) (ssi_header : obj -> option bool) (uri_ok : string -> bool)
      (w : wallet) (b : request_builder) (u : uuid) (m m' : store) (dest : url) (s : session) (h : hook) (name : string),
    let c := v_client (rb_verifier b) in
    build_with_session_id url_parse b u (w_metadata w) false m = (m', Ok dest) -> st_get u m' = Some s ->
    (* the wallet *)
    wallet_endpoint url_parse (w_metadata w) (wm_endpoint (w_metadata w)) -> answerable (w_metadata w) (rb_params b) ->
    In (cl_prefix c, h) known_hooks -> w_hook w h (s_request s) (Some (s_jwt s)) = Ok tt ->
    (* the client *)
    readable_client ssi_header c -> cl_client_id c = cl_prefix c +:+ ":" +:+ name -> utf8_valid (cl_client_id c) = true ->
    jwf (aro_to_json (s_request s)) = true -> jdepth (aro_to_json (s_request s)) <= 127 ->
    (* the network, when the request is by reference *)
    (forall base r, v_byref (rb_verifier b) = Some base -> extended base (uuid_str u) r ->
       usable_url url_parse uri_ok r /\ request_served (w_http w) u m' r) ->
    snd (validate_request url_parse ssi_header uri_ok w dest) = Ok (s_request s)
    /\ hook_events (fst (validate_request url_parse ssi_header uri_ok w dest)) = [(h, s_request s, Some (s_jwt s))].
Proof. exact c86_validated_pf. Qed.
Print Assumptions c86_validated.

Example c86_validated_witness :
  flow true (x509_hash_client toy_der toy_chain (toy_signer "K")) flow_hook = Ok "https://v.example/submit/00000000-0000-0000-0000-000000000007"
  /\ flow false (x509_san_client toy_der toy_chain (toy_signer "K")) flow_hook = Ok "https://v.example/submit/00000000-0000-0000-0000-000000000007"
  /\ is_ok (flow false (x509_san_client toy_der toy_chain (toy_signer "X")) flow_hook) = false.
Proof. exact c86_validated_ex. Qed.

(** C86: the answer of the wallet to that request reaches the verifier as it is: it is posted to the response endpoint of
    the session, the verifier reads the same response from the body, its validator is called with that session and that
    response, and the status then polled is what the validator said. *)
Theorem c86_answered
  : forall (url_parse : string -> option url) (uri_ok : string -> bool) (http : http_client)
      (wm : wallet_metadata) (b : request_builder) (u : uuid) (m m' m2 : store) (dest : url) (s s2 : session) (resp : auth_response)
      (validator : session -> auth_response -> outcome),
    build_with_session_id url_parse b u wm false m = (m', Ok dest) -> st_get u m' = Some s ->
    (* the store when the answer arrives still has the session *)
    st_get u m2 = Some s2 -> same_request s s2 ->
    (* the wallet answers in the mode asked for *)
    kind_matches (ro_mode (s_request s)) resp -> sendable resp ->
    (forall r, extended (v_submission (rb_verifier b)) (uuid_str u) r -> usable_url url_parse uri_ok r) ->
    exists r body m3,
      extended (v_submission (rb_verifier b)) (uuid_str u) r
      /\ fst (submit_response url_parse uri_ok http (s_request s) resp) = [EHttp (form_post (url_str r) body)]
      /\ from_form body = Ok resp
      /\ verify_response u resp validator m2 = (m3, [(s2, resp)], Ok tt)
      /\ poll_status u m3 = (m3, Ok (Complete (validator s2 resp)))
      /\ ((exists status, (200 <= status < 300)%N /\ http (form_post (url_str r) body) = Ok (mk_resp status "")) ->
          snd (submit_response url_parse uri_ok http (s_request s) resp) = Ok None).
Proof. exact c86_answered_pf. Qed.
Print Assumptions c86_answered.

Example c86_answered_witness :
  flow false (did_client String.eqb toy_resolver ("did:web:v.example" +:+ "#" +:+ "1") (toy_signer "K")) flow_hook
  = Ok "https://v.example/submit/00000000-0000-0000-0000-000000000007".
Proof. exact c86_answered_ex. Qed.

(** C86: so a wallet that uses the library's own DID verification, with a resolver that knows the verifier's key,
    validates every request of a DID client whose algorithm and DID it accepts. *)
Theorem c86_did
  : forall (key : Type) (url_parse : string -> option url) (ssi_header : obj -> option bool) (uri_ok : string -> bool)
      (sig_ok : key -> string -> string -> string -> bool) (key_eqb : key -> key -> bool) (resolver : string -> res key)
      (sg : signer key) (did fragment alg : string) (trusted : option (list string))
      (w : wallet) (b : request_builder) (u : uuid) (m m' : store) (dest : url) (s : session),
    build_with_session_id url_parse b u (w_metadata w) false m = (m', Ok dest) -> st_get u m' = Some s ->
    (* the verifier's client *)
    did_client key_eqb resolver (did +:+ "#" +:+ fragment) sg = Ok (v_client (rb_verifier b)) ->
    has_char "#" did = false -> has_char "#" fragment = false -> utf8_valid did = true -> utf8_valid fragment = true ->
    sg_alg sg = Ok alg -> utf8_valid alg = true ->
    (forall k k', key_eqb k k' = true -> k = k') ->
    (forall k x, sg_jwk sg = Ok k -> sig_ok k alg x (sg_sign sg x) = true) ->
    jwf (aro_to_json (s_request s)) = true -> jdepth (aro_to_json (s_request s)) <= 127 ->
    (* the wallet *)
    wallet_endpoint url_parse (w_metadata w) (wm_endpoint (w_metadata w)) -> answerable (w_metadata w) (rb_params b) ->
    (forall a jwt, w_hook w HDid a (Some jwt) = verify_with_resolver ssi_header sig_ok resolver (w_metadata w) a jwt trusted) ->
    alg_supported (w_metadata w) alg -> (forall l, trusted = Some l -> In did l) ->
    (forall h, did_header alg (did +:+ "#" +:+ fragment) = JObj h -> ssi_header h = Some true) ->
    (* the network, when the request is by reference *)
    (forall base r, v_byref (rb_verifier b) = Some base -> extended base (uuid_str u) r ->
       usable_url url_parse uri_ok r /\ request_served (w_http w) u m' r) ->
    snd (validate_request url_parse ssi_header uri_ok w dest) = Ok (s_request s).
Proof. exact c86_did_pf. Qed.
Print Assumptions c86_did.

Example c86_did_witness :
  flow true (did_client String.eqb toy_resolver ("did:web:v.example" +:+ "#" +:+ "1") (toy_signer "K")) flow_hook
  = Ok "https://v.example/submit/00000000-0000-0000-0000-000000000007"
  /\ is_ok (flow true (did_client String.eqb toy_resolver ("did:web:v.example" +:+ "#" +:+ "1") (mk_signer (Ok "ES256") (Ok "K") (fun x => x))) flow_hook) = false.
Proof. exact c86_did_ex. Qed.

(** C86: and a wallet that uses the library's own X.509 verification validates every request of an X.509 client whose
    algorithm it accepts. *)
Theorem c86_x509
  : forall (key vkey root : Type) (url_parse : string -> option url) (ssi_header : obj -> option bool) (uri_ok : string -> bool)
      (cert_of_der : string -> option cert) (to_der : cert -> res string)
      (from_spki : string -> string -> option vkey) (verifies : vkey -> string -> string -> bool)
      (sg : signer key) (leaf : cert) (rest : list cert) (alg : string) (v : vkey) (roots : option (list root))
      (w : wallet) (b : request_builder) (u : uuid) (m m' : store) (dest : url) (s : session),
    build_with_session_id url_parse b u (w_metadata w) false m = (m', Ok dest) -> st_get u m' = Some s ->
    (* the verifier's client *)
    x509_hash_client to_der (leaf :: rest) sg = Ok (v_client (rb_verifier b))
    \/ x509_san_client to_der (leaf :: rest) sg = Ok (v_client (rb_verifier b)) ->
    (forall d, certified leaf d -> utf8_valid d = true) ->
    sg_alg sg = Ok alg -> utf8_valid alg = true ->
    (forall x der, to_der x = Ok der -> cert_of_der der = Some x) ->
    from_spki (c_spki leaf) alg = Some v -> (forall x, verifies v x (sg_sign sg x) = true) ->
    jwf (aro_to_json (s_request s)) = true -> jdepth (aro_to_json (s_request s)) <= 127 ->
    (* the wallet *)
    wallet_endpoint url_parse (w_metadata w) (wm_endpoint (w_metadata w)) -> answerable (w_metadata w) (rb_params b) ->
    (forall a jwt, w_hook w HX509Hash a (Some jwt) = x509_hash_validate cert_of_der from_spki verifies (w_metadata w) a jwt roots) ->
    (forall a jwt, w_hook w HX509San a (Some jwt) = x509_san_validate cert_of_der from_spki verifies (w_metadata w) a jwt roots) ->
    alg_supported (w_metadata w) alg ->
    (forall certs h, x5c_header alg certs = JObj h -> ssi_header h = Some true) ->
    (* the network, when the request is by reference *)
    (forall base r, v_byref (rb_verifier b) = Some base -> extended base (uuid_str u) r ->
       usable_url url_parse uri_ok r /\ request_served (w_http w) u m' r) ->
    snd (validate_request url_parse ssi_header uri_ok w dest) = Ok (s_request s).
Proof. exact c86_x509_pf. Qed.
Print Assumptions c86_x509.

Example c86_x509_witness :
  flow false (x509_hash_client toy_der toy_chain (toy_signer "K")) flow_hook = Ok "https://v.example/submit/00000000-0000-0000-0000-000000000007"
  /\ flow true (x509_san_client toy_der toy_chain (toy_signer "K")) flow_hook = Ok "https://v.example/submit/00000000-0000-0000-0000-000000000007".
Proof. exact c86_x509_ex. Qed.
