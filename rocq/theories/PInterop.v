(** Wallet and verifier together (C79) *)
From Coq Require Import Lia ZArith.
From Verif Require Import Base BaseFacts Utf8 Utf8Facts Json JsonFacts JsonText JsonTextFacts Base64 Base64Facts Sha256 Serde Url UrlEncoded UrlEncodedFacts
  Object Formats Params Metadata Dcql Effects Jwt Request Response Session X509 SpecCert CertFacts Client Builder Server Jwe ExMatcher ExWallet ExVerifier.
From Verif Require Import MapFacts Spec SpecObject SpecRequest PfRequest PfResolve SpecResponse PfResponse SpecJwe PfJwe SpecBuilder SpecSession StoreFacts
  PfBuilder UuidFacts PfSession PfServer PfClient SpecExample PfExample SpecVerifierEx PfExServer PfExInitiate PfText.
From Verif Require Import PfInterop.

(** C79: the example wallet answers whenever it can: when the request resolves to a signed request object whose
    credential queries are all met by its store, the response URI fits the client, the response mode is one of the
    two it knows, in the encrypted one there is a key to encrypt to, and the verifier accepts the POST, then it makes
    exactly one POST, to the response URI, and reports success. *)
Theorem c79_wallet
  : forall (url_parse : string -> option url) (ssi_header : obj -> option bool) (uri_ok : string -> bool)
    (jwk_ok : obj -> bool) (jwe_encrypt : obj -> obj -> obj -> res string) (lower sign : string -> string) (now : Z)
    (http : http_client) (endpoint : url) (store : list credential) (p : params)
    (ar : auth_request) (a : aro) (jwt : string) (q : dcql),
    let run := authorize url_parse ssi_header uri_ok jwk_ok jwe_encrypt lower sign now http endpoint store true p in
    from_url url_parse (build_request_url endpoint p) endpoint = Ok ar ->
    snd (resolve_request url_parse ssi_header uri_ok http ar) = Ok (a, Some jwt) ->
    aro_dcql a = Some (Ok q) -> dq_credentials q <> [] ->
    (forall cq, In cq (dq_credentials q) -> exists c, In c store /\ satisfies lower cq c) ->
    (forall uri, text_at "client_id" (aro_to_obj a) ("redirect_uri:" +:+ uri) -> url_str (ro_return a) = uri) ->
    (ro_mode a = DirectPost
     \/ ro_mode a = DirectPostJwt
        /\ exists cm keys key, obj_get "client_metadata" (aro_to_obj a) = Some (JObj cm) /\ client_keys cm keys
             /\ first_key keys key /\ jwk_ok key = true
             /\ forall header claims, exists jwe, jwe_encrypt header claims key = Ok jwe) ->
    (forall body, exists rs, http (wallet_post (ro_return a) body) = Ok rs /\ (200 <= rs_status rs < 300)%N) ->
    exists body x, posts (http_events (fst run)) = [wallet_post (ro_return a) body] /\ snd run = Ok x.
Proof. exact c79_wallet_pf. Qed.
Print Assumptions c79_wallet.

Example c79_wallet_witness :
  match from_url simple_parse (build_request_url ex_endpoint (ex_params None (ex_object "x509_san_dns:v.example"))) ex_endpoint with
  | Ok ar =>
      match snd (resolve_request simple_parse any_header (fun _ => true) (PfResolve.serve 200 "{}") ar) with
      | Ok (a, Some jwt) =>
          match aro_dcql a with Some (Ok q) => length (dq_credentials q) = 1 /\ is_ok (match_query (fun s => s) [pid] q) = true | _ => False end
          /\ ro_mode a = DirectPost /\ ex_posted None (ex_object "x509_san_dns:v.example") = [url_str (ro_return a)]
      | _ => False
      end
  | Err _ => False
  end
  /\ snd (ex_run None (ex_object "x509_san_dns:v.example")) = Ok None.
Proof. exact c79_wallet_ex. Qed.

(** C79: the two examples work together: for a wallet that holds an SD-JWT PID and whose HTTP client reaches the
    verifier, following the authorization URL that the verifier answers ends with success in the wallet after one
    POST, to the response endpoint of that session, with 200 for that POST, and with the verifier's status reporting
    success: one credential received, or in the encrypted mode the claims with exactly a PID of the wallet, presented
    for the verifier's client id and nonce. *)
Theorem c79_interop
  : forall (key : Type) (url_parse : string -> option url) (ssi_header : obj -> option bool) (uri_ok : string -> bool)
      (jwk_ok : obj -> bool) (jwe_encrypt : obj -> obj -> obj -> res string) (jwe_open : string -> res string)
      (lower sign : string -> string) (now : Z)
      (to_der : cert -> res string) (c : cert) (s : signer key) (alg : string) (k : obj) (public : url) (encrypted : bool) (a : adapter)
      (nonce : option string) (fresh id : uuid) (m m1 : store) (answer : obj) (query : string)
      (http : http_client) (endpoint : url) (credentials : list credential) (p : params),
    (* the verifier *)
    app_new url_parse to_der c s k public encrypted = Ok a -> (id < 2 ^ 128)%N ->
    sg_alg s = Ok alg -> utf8_valid alg = true ->
    (forall certs h, x5c_header alg certs = JObj h -> ssi_header h = Some true) ->
    (forall d, certified c d -> utf8_valid d = true) -> (forall n, nonce = Some n -> utf8_valid n = true) ->
    jwf (JObj k) = true -> jdepth (JObj k) <= 100 ->
    (encrypted = true ->
       text_at "crv" k "P-256"
       /\ forall pub, same_material k pub ->
            jwk_ok pub = true
            /\ forall header claims, exists jwe, jwe_encrypt header claims pub = Ok jwe /\ utf8_valid jwe = true
                 /\ jwe_open jwe = Ok (jprint (JObj claims))) ->
    (* it is asked to initiate a presentation *)
    serves url_parse jwe_open a (HInitiate nonce fresh id) m m1 (RJson 200 (JObj answer)) ->
    (* the network *)
    (forall segment r, In segment ["request"; "response"] -> at_session public segment id r ->
       utf8_valid (url_str r) = true /\ url_parse (url_str r) = Some r /\ uri_ok (url_str r) = true) ->
    (forall request response, at_session public "request" id request -> at_session public "response" id response ->
       relays url_parse jwe_open a id request response m1 http) ->
    (* the wallet, called with the parameters of the authorization URL *)
    (forall w, url_parse conformance_wallet = Some w -> url_parse (url_str w) = Some endpoint) ->
    u_query endpoint = None -> u_frag endpoint = None ->
    text_at "authorization_url" answer (url_str endpoint +:+ "?" +:+ query) -> param_pairs p = form_parse query ->
    clock_ok now -> (forall x, In x credentials -> utf8_valid (mc_raw x) = true) ->
    (exists x, In x credentials /\ is_pid x) ->
    let run := authorize url_parse ssi_header uri_ok jwk_ok jwe_encrypt lower sign now http endpoint credentials true p in
    exists response body m2 jwt m3 status info,
      at_session public "response" id response
      /\ posts (http_events (fst run)) = [wallet_post response body] /\ snd run = Ok None
      /\ serves url_parse jwe_open a (HRequest (uuid_str id)) m1 m2 (RJwt jwt)
      /\ serves url_parse jwe_open a (HResponse (uuid_str id) body) m2 m3 (RJson 200 (JObj []))
      /\ serves url_parse jwe_open a (HStatus (uuid_str id)) m3 m3 (RJson 200 status)
      /\ says_success status info
      /\ if encrypted
         then exists claims i x dns names,
                members_are info [("message", JStr "JARM response decrypted and verified"); ("decrypted_payload", JObj claims)]
                /\ claims_of claims [("pid", [i])] None /\ In x credentials /\ is_pid x /\ dns_names c (dns :: names)
                /\ presented sign now (match nonce with Some n => n | None => uuid_str fresh end) ("x509_san_dns:" +:+ dns) (mc_raw x) i
         else members_are info [("message", JStr "Verification successful"); ("credentials_received", JInt 1)].
Proof. exact c79_interop_pf. Qed.
Print Assumptions c79_interop.

Example c79_interop_witness : forall enc : bool,
  exists response body, posts (http_events (fst (pair_run enc))) = [wallet_post response body] /\ snd (pair_run enc) = Ok None.
Proof. exact c79_interop_ex. Qed.
