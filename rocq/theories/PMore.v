(** Declaring more never refuses more (C124) *)
From Coq Require Import Lia.
From Verif Require Import Base BaseFacts Utf8 Utf8Facts Json JsonFacts JsonText JsonTextFacts Base64 Base64Facts Sha256 Serde Url UrlEncoded UrlEncodedFacts
  Object Formats Params Metadata Dcql Effects Jwt Request Verify Did X509 SpecCert CertFacts Client Response Session Builder Wallet ExMatcher.
From Verif Require Import MapFacts Spec SpecObject SpecRequest SpecVerify SpecResponse SpecWallet SpecBuilder SpecSession StoreFacts ParamFacts PfParams PfText SpecConfig
  PfRequest PfResolve PfVerify PfDid PfX509 PfClient PfResponse PfWallet PfBuilder PfSession SpecExample PfExample PfConfig SpecFlow PfFlow PfMetadata SpecMore.
From Verif Require Import PfMore.

(** C124: a wallet that declares more, and whose hooks refuse nothing more, validates every request it validated before,
    to the same request object and with the same HTTP requests and hooks. *)
Theorem c124_validates
  : forall (url_parse : string -> option url) (ssi_header : obj -> option bool) (uri_ok : string -> bool)
      (w w' : wallet) (u : url) (a : aro),
    declares_more (w_metadata w) (w_metadata w') -> w_http w' = w_http w ->
    (forall h a jwt, w_hook w h a jwt = Ok tt -> w_hook w' h a jwt = Ok tt) ->
    snd (validate_request url_parse ssi_header uri_ok w u) = Ok a ->
    validate_request url_parse ssi_header uri_ok w' u = validate_request url_parse ssi_header uri_ok w u.
Proof. exact c124_validates_pf. Qed.
Print Assumptions c124_validates.

Example c124_validates_witness :
  is_ok (snd (validate_request simple_parse any_header (fun _ => true) (url_wallet ["x509_san_dns"]) (url_request "openid4vp://w/auth"))) = true
  /\ declares_more (w_metadata (url_wallet ["x509_san_dns"])) (w_metadata (url_wallet ["x509_hash"; "x509_san_dns"]))
  /\ is_ok (snd (validate_request simple_parse any_header (fun _ => true) (url_wallet ["x509_hash"]) (url_request "openid4vp://w/auth"))) = false.
Proof. exact c124_validates_ex. Qed.

(** C124: the library's own verification of DID clients accepts what it accepted when the wallet declares more or trusts more
    DIDs. *)
Theorem c124_did
  : forall (key : Type) (ssi_header : obj -> option bool) (sig_ok : key -> string -> string -> string -> bool)
      (resolver : string -> res key) (w w' : wallet_metadata) (a : aro) (jwt : string) (trusted trusted' : option (list string)),
    declares_more w w' -> trusts_more trusted trusted' ->
    verify_with_resolver ssi_header sig_ok resolver w a jwt trusted = Ok tt ->
    verify_with_resolver ssi_header sig_ok resolver w' a jwt trusted' = Ok tt.
Proof. exact c124_did_pf. Qed.
Print Assumptions c124_did.

Example c124_did_witness :
  did_verdict "K" (Some ["did:web:v.example"]) (did_header "ES256" "did:web:v.example#1") = Ok tt
  /\ trusts_more (Some ["did:web:v.example"]) (Some ["did:web:x"; "did:web:v.example"]) /\ trusts_more (Some ["did:web:v.example"]) None
  /\ exists w', add_signing_alg "ES384" did_wallet = Ok w'.
Proof. exact c124_did_ex. Qed.

(** C124: and so does its verification of X.509 clients. *)
Theorem c124_x509
  : forall (cert_of_der : string -> option cert) (vkey : Type) (from_spki : string -> string -> option vkey)
      (verifies : vkey -> string -> string -> bool) (root : Type) (roots roots' : option (list root))
      (w w' : wallet_metadata) (a : aro) (jwt : string),
    declares_more w w' ->
    (x509_hash_validate cert_of_der from_spki verifies w a jwt roots = Ok tt ->
     x509_hash_validate cert_of_der from_spki verifies w' a jwt roots' = Ok tt)
    /\ (x509_san_validate cert_of_der from_spki verifies w a jwt roots = Ok tt ->
        x509_san_validate cert_of_der from_spki verifies w' a jwt roots' = Ok tt).
Proof. exact c124_x509_pf. Qed.
Print Assumptions c124_x509.

Example c124_x509_witness :
  hash_verdict toy_hash_id "K" (x5c_header "ES256" [b64std_encode "K|v.example"]) = Ok tt
  /\ san_verdict "x509_san_dns:v.example" "K" (x5c_header "ES256" [b64std_encode "K|v.example"]) = Ok tt.
Proof. exact c124_x509_ex. Qed.

(** C124: a verifier builds for a wallet that declares more every request it built before, with the same URL and session. *)
Theorem c124_builds
  : forall (url_parse : string -> option url) (b : request_builder) (u : uuid) (w w' : wallet_metadata) (m m' : store) (dest : url),
    declares_more w w' ->
    build_with_session_id url_parse b u w false m = (m', Ok dest) ->
    build_with_session_id url_parse b u w' false m = (m', Ok dest).
Proof. exact c124_builds_pf. Qed.
Print Assumptions c124_builds.

Example c124_builds_witness :
  is_ok (snd (build_with_session_id simple_parse (toy_builder true toy_client) 7%N toy_wm false [])) = true
  /\ exists w', add_client_id_prefixes ["redirect_uri"] toy_wm = Ok w' /\ w' <> toy_wm.
Proof. exact c124_builds_ex. Qed.

(** C124: adding signing algorithms or client identifier prefixes is declaring more. *)
Theorem c124_added
  : forall (w w' : wallet_metadata) (alg : string) (prefixes : list string),
    add_signing_alg alg w = Ok w' \/ add_client_id_prefixes prefixes w = Ok w' -> declares_more w w'.
Proof. exact c124_added_pf. Qed.
Print Assumptions c124_added.

Example c124_added_witness :
  option_map wm_obj (match add_signing_alg "ES384" toy_wm with Ok w => Some w | Err _ => None end)
  = Some [("authorization_endpoint", JStr "https://w.example/authorize");
          ("client_id_prefixes_supported", jstrs ["x509_hash"; "x509_san_dns"; "decentralized_identifier"]);
          ("request_object_signing_alg_values_supported", jstrs ["ES256"; "ES384"])].
Proof. exact c124_added_ex. Qed.

(** C124: the example wallet finds credentials for every query for which it found some before it got more credentials. *)
Theorem c124_credentials
  : forall (lower : string -> string) (credentials credentials' : list credential) (q : dcql) (s : selection),
    incl credentials credentials' -> match_query lower credentials q = Ok s ->
    exists s', match_query lower credentials' q = Ok s' /\ map fst s' = map fst s.
Proof. exact c124_credentials_pf. Qed.
Print Assumptions c124_credentials.

Example c124_credentials_witness :
  match_query (fun s => s) [pid] (dcql_new [pid_query "a" "urn:pid" "given_name"]) = Ok [("a", ["iss~disc~kb"])]
  /\ match_query (fun s => s) [mk_credential "x" (mc_format pid) (mc_vct pid) None "other~" []; pid] (dcql_new [pid_query "a" "urn:pid" "given_name"]) = Ok [("a", ["other~"])].
Proof. exact c124_credentials_ex. Qed.

(** C124: but naming encryption algorithms for the first time is a restriction: a wallet that answered an encrypted request
    refuses it once it lists an algorithm. *)
Theorem c124_first_refuted
  : exists (w w' : wallet) (a : aro) (alg : string),
    w_http w' = w_http w /\ w_hook w' = w_hook w
    /\ obj_get "authorization_encryption_alg_values_supported" (wm_obj (w_metadata w)) = None
    /\ obj_get "authorization_encryption_alg_values_supported" (wm_obj (w_metadata w')) = Some (jstrs [alg])
    /\ (forall k, k <> "authorization_encryption_alg_values_supported" -> obj_get k (wm_obj (w_metadata w')) = obj_get k (wm_obj (w_metadata w)))
    /\ snd (verify_request w a None) = Ok tt /\ exists e, snd (verify_request w' a None) = Err e.
Proof. exact c124_first_refuted_pf. Qed.
Print Assumptions c124_first_refuted.
