(** The example verifier: initiating a presentation (C77) *)
From Coq Require Import Lia ZArith.
From Verif Require Import Base BaseFacts Utf8 Json JsonFacts JsonText JsonTextFacts Serde Url UrlEncoded Object Formats Params Metadata Dcql
  Request Response Session X509 SpecCert CertFacts Client Builder Server ExVerifier.
From Verif Require Import MapFacts Spec SpecObject SpecRequest SpecJwe SpecBuilder SpecSession StoreFacts PfBuilder UuidFacts PfSession PfServer
  SpecVerifierEx PfExServer.
From Verif Require Import PfExInitiate.

(** C77: when a presentation is initiated, the session is stored under the id that is returned, with a request object
    that says exactly what the verifier is configured for: its certificate's DNS name as client id, the given nonce or
    a fresh one, the mode, the response endpoint of that session, the query, and its metadata, with its key exactly
    in the encrypted mode; the JWT is that object signed with the certificate; the URL returned points the wallet to
    the request endpoint of that session. *)
Theorem c77_initiate
  : forall (key : Type) (url_parse : string -> option url) (to_der : cert -> res string) (c : cert) (s : signer key)
      (k : obj) (public : url) (encrypted : bool) (a : adapter) (nonce : option string) (fresh id : uuid)
      (validator : session -> auth_response -> outcome) (m m' : store) calls (j : json),
    app_new url_parse to_der c s k public encrypted = Ok a ->
    run false validator (initiate_request url_parse a nonce fresh id) m = (m', calls, Ok (RJson 200 j)) ->
    exists dns names sess response request wallet endpoint dest,
      dns_names c (dns :: names)
      /\ at_session public "response" id response /\ at_session public "request" id request
      /\ st_get id m' = Some sess /\ (forall id', id' <> id -> st_get id' m' = st_get id' m)
      /\ s_status sess = SentRequestByReference /\ s_dcql sess = app_query
      /\ asks (aro_to_obj (s_request sess)) dns (match nonce with Some n => n | None => uuid_str fresh end) k encrypted response
      /\ x509_jwt to_der [c] s (s_request sess) = Ok (s_jwt sess)
      /\ url_parse conformance_wallet = Some wallet /\ url_parse (url_str wallet) = Some endpoint
      /\ to_url (mk_ar (Some ("x509_san_dns:" +:+ dns)) (ByReference request)) endpoint = Ok dest
      /\ members_are j [("session_id", JStr (uuid_str id)); ("authorization_url", JStr (url_str dest));
                        ("status_url", JStr (url_str public +:+ "/status/" +:+ uuid_str id))].
Proof. exact c77_initiate_pf. Qed.
Print Assumptions c77_initiate.

Example c77_initiate_witness :
  exists a, app_new simple_parse (fun c => Ok (c_spki c)) (named ["v.example"] "K") (mk_signer (Ok "ES256") (Ok "k") (fun _ => "sig"))
    [("kty", JStr "EC")] (toy_url "https://v.example/") true = Ok a
  /\ snd (run false (app_validator toy_open) (initiate_request simple_parse a (Some "n") 1%N 7%N) [])
     = Ok (RJson 200 (JObj [("authorization_url", JStr "https://demo.certification.openid.net/test/a/my-verifier-oid4vp1/authorize?client_id=x509_san_dns%3Av.example&request_uri=https%3A%2F%2Fv.example%2Frequest%2F00000000-0000-0000-0000-000000000007");
                            ("session_id", JStr "00000000-0000-0000-0000-000000000007");
                            ("status_url", JStr "https://v.example//status/00000000-0000-0000-0000-000000000007")])).
Proof. exact c77_initiate_ex. Qed.

(** C77: initiating answers 200 or 500, and with 500 nothing is stored. *)
Theorem c77_failed
  : forall (url_parse : string -> option url) (a : adapter) (nonce : option string) (fresh id : uuid)
      (validator : session -> auth_response -> outcome) (m : store),
    (exists m' j, run false validator (initiate_request url_parse a nonce fresh id) m = (m', [], Ok (RJson 200 j)))
    \/ run false validator (initiate_request url_parse a nonce fresh id) m = (m, [], Ok (RError 500)).
Proof. exact c77_failed_pf. Qed.
Print Assumptions c77_failed.

Example c77_failed_witness :
  run false (app_validator toy_open)
    (initiate_request simple_parse (mk_app (mk_verifier toy_client [] None (toy_url "https://x/")) toy_wm (toy_url "https://x/")) None 1%N 7%N) []
  = ([], [], Ok (RError 500)).
Proof. exact c77_failed_ex. Qed.

(** C77: initiating succeeds whenever the certificate and the key can sign and the URLs involved can be read back. *)
Theorem c77_succeeds
  : forall (key : Type) (url_parse : string -> option url) (to_der : cert -> res string) (c : cert) (s : signer key)
      (k : obj) (public : url) (encrypted : bool) (a : adapter) (nonce : option string) (fresh id : uuid)
      (validator : session -> auth_response -> outcome) (m : store) (alg der : string),
    app_new url_parse to_der c s k public encrypted = Ok a ->
    sg_alg s = Ok alg -> to_der c = Ok der ->
    (forall r, at_session public "response" id r -> url_parse (url_str r) <> None) ->
    (forall w, url_parse conformance_wallet = Some w -> url_parse (url_str w) <> None) ->
    exists m' j, run false validator (initiate_request url_parse a nonce fresh id) m = (m', [], Ok (RJson 200 j)).
Proof. exact c77_succeeds_pf. Qed.
Print Assumptions c77_succeeds.

Example c77_succeeds_witness :
  simple_parse (url_str (toy_url "https://v.example/response/00000000-0000-0000-0000-000000000007")) <> None
  /\ match simple_parse WALLET_AUTHORIZATION_ENDPOINT with Some w => simple_parse (url_str w) <> None | None => False end.
Proof. exact c77_succeeds_ex. Qed.
