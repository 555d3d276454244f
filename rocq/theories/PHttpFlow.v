(** Sending to web URLs (C113) *)
From Coq Require Import Lia ZArith.
From Verif Require Import Base BaseFacts Utf8 Utf8Facts Json JsonFacts JsonText JsonTextFacts Base64 Base64Facts Sha256 Serde Url UrlEncoded UrlEncodedFacts
  Object Formats Params Metadata Dcql Effects Jwt Request Response Session X509 SpecCert CertFacts Client Builder Server Jwe ExMatcher ExWallet ExVerifier.
From Verif Require Import Verify Wallet SpecWallet PfWallet MapFacts Spec SpecObject SpecRequest PfRequest PfResolve SpecResponse PfResponse SpecJwe PfJwe SpecBuilder SpecSession StoreFacts
  PfBuilder UuidFacts PfSession PfServer PfClient SpecExample PfExample SpecVerifierEx PfExServer PfExInitiate PfText PfMetadata PfInterop.
From Verif Require Import WebUrl SpecWebUrl PfWebUrl PfWebFlow HttpUri SpecHttpUri PfHttpUri.
From Verif Require Import PfHttpFlow.

(** C113: the URLs of a session can be sent to: a verifier whose base URL is a web URL read from a text, with a plain host
    name and at least 46 characters shorter than what HTTP allows, gives every session request, response and status
    URLs that the HTTP client takes; the same for an endpoint of its own choice extended by the session. *)
Theorem c113_sessions :
  forall domain ipv6 : string -> option string, hosts_ok domain ipv6 -> eight_groups ipv6 ->
    forall t public, web_parse domain ipv6 t = Some public ->
      special (u_scheme public) -> plain_host_name public -> at_most 65488 public ->
      (forall id r, extended public (uuid_str id) r -> web_uri (url_str r) = true)
      /\ (forall segment id r, In segment ["request"; "response"; "status"] -> at_session public segment id r ->
            web_uri (url_str r) = true).
Proof. exact c113_sessions_pf. Qed.
Print Assumptions c113_sessions.

Example c113_sessions_witness :
  exists public r, web "https://v.example/base/" = Some public /\ special (u_scheme public) /\ plain_host_name public /\ at_most 65488 public
    /\ at_session public "response" 7%N r.
Proof. exact c113_sessions_ex. Qed.

(** C113: what a wallet sends when it is given web URLs: the request object is fetched, and the response posted, at
    exactly the URL that was given when that URL has at most 65534 characters and a plain host name; otherwise nothing
    is sent at all. *)
Theorem c113_traffic :
  forall domain ipv6 : string -> option string, hosts_ok domain ipv6 -> eight_groups ipv6 ->
    forall t u, web_parse domain ipv6 t = Some u -> special (u_scheme u) ->
      let usable := at_most 65534 u /\ plain_host_name u in
      (forall ssi_header (w : wallet) client_id,
         let events := http_events (fst (validate (web_parse domain ipv6) ssi_header web_uri w (mk_ar client_id (ByReference u)))) in
         (usable -> events = [mk_req "GET" (url_str u) [("Prefer", "OID4VP-1.0.0")] ""]) /\ (~ usable -> events = []))
      /\ (forall (http : http_client) (a : aro) (r : auth_response), ro_return a = u -> kind_matches (ro_mode a) r ->
         let events := fst (submit_response (web_parse domain ipv6) web_uri http a r) in
         (usable -> exists body, events = [EHttp (form_post (url_str u) body)] /\ (sendable r -> from_form body = Ok r))
         /\ (~ usable -> events = [])).
Proof. exact c113_traffic_pf. Qed.
Print Assumptions c113_traffic.

Example c113_traffic_witness :
  exists u v, web_parse odd_domain toy_ipv6 "https://v.example/request" = Some u /\ special (u_scheme u) /\ web_uri (url_str u) = true
    /\ web_parse odd_domain toy_ipv6 "https://{v}.example/request" = Some v /\ special (u_scheme v) /\ web_uri (url_str v) = false.
Proof. exact c113_traffic_ex. Qed.

(** C113: the two examples work together, with the URL reader of the standard and the HTTP client's own test of URLs:
    as C79 and C112, with nothing assumed of the URLs but that the verifier's base URL is a web URL with a plain host name
    and not too long. *)
Theorem c113_interop
  : forall (key : Type) (domain ipv6 : string -> option string) (ssi_header : obj -> option bool)
      (jwk_ok : obj -> bool) (jwe_encrypt : obj -> obj -> obj -> res string) (jwe_open : string -> res string)
      (lower sign : string -> string) (now : Z)
      (to_der : cert -> res string) (c : cert) (s : signer key) (alg : string) (k : obj) (public : url) (encrypted : bool) (a : adapter)
      (nonce : option string) (fresh id : uuid) (m m1 : store) (answer : obj) (query : string)
      (http : http_client) (endpoint : url) (credentials : list credential) (p : params),
    hosts_ok domain ipv6 -> eight_groups ipv6 ->
    (* the verifier, at a web URL read from a text, not much shorter than what HTTP allows *)
    (exists t, web_parse domain ipv6 t = Some public) ->
    special (u_scheme public) -> plain_host_name public -> at_most 65488 public ->
    app_new (web_parse domain ipv6) to_der c s k public encrypted = Ok a -> (id < 2 ^ 128)%N ->
    sg_alg s = Ok alg -> utf8_valid alg = true ->
    (forall certs h, x5c_header alg certs = JObj h -> ssi_header h = Some true) ->
    (forall d, certified c d -> utf8_valid d = true) -> (forall n, nonce = Some n -> utf8_valid n = true) ->
    jwf (JObj k) = true -> jdepth (JObj k) <= 100 ->
    (encrypted = true ->
       text_at "crv" k "P-256"
       /\ forall pub, same_material k pub ->
            jwk_ok pub = true
            /\ forall header claims, exists jwe, jwe_encrypt header claims pub = Ok jwe /\ utf8_valid jwe = true
                 /\ jwe_open jwe = Ok (jprint (JObj claims))) ->
    (* it is asked to initiate a presentation *)
    serves (web_parse domain ipv6) jwe_open a (HInitiate nonce fresh id) m m1 (RJson 200 (JObj answer)) ->
    (* the network *)
    (forall request response, at_session public "request" id request -> at_session public "response" id response ->
       relays (web_parse domain ipv6) jwe_open a id request response m1 http) ->
    (* the wallet, called with the parameters of the authorization URL *)
    web_parse domain ipv6 conformance_wallet = Some endpoint ->
    text_at "authorization_url" answer (url_str endpoint +:+ "?" +:+ query) -> param_pairs p = form_parse query ->
    clock_ok now -> (forall x, In x credentials -> utf8_valid (mc_raw x) = true) ->
    (exists x, In x credentials /\ is_pid x) ->
    let run := authorize (web_parse domain ipv6) ssi_header web_uri jwk_ok jwe_encrypt lower sign now http endpoint credentials true p in
    exists response body m2 jwt m3 status info,
      at_session public "response" id response
      /\ posts (http_events (fst run)) = [wallet_post response body] /\ snd run = Ok None
      /\ serves (web_parse domain ipv6) jwe_open a (HRequest (uuid_str id)) m1 m2 (RJwt jwt)
      /\ serves (web_parse domain ipv6) jwe_open a (HResponse (uuid_str id) body) m2 m3 (RJson 200 (JObj []))
      /\ serves (web_parse domain ipv6) jwe_open a (HStatus (uuid_str id)) m3 m3 (RJson 200 status)
      /\ says_success status info
      /\ if encrypted
         then exists claims i x dns names,
                members_are info [("message", JStr "JARM response decrypted and verified"); ("decrypted_payload", JObj claims)]
                /\ claims_of claims [("pid", [i])] None /\ In x credentials /\ is_pid x /\ dns_names c (dns :: names)
                /\ presented sign now (match nonce with Some n => n | None => uuid_str fresh end) ("x509_san_dns:" +:+ dns) (mc_raw x) i
         else members_are info [("message", JStr "Verification successful"); ("credentials_received", JInt 1)].
Proof. exact c113_interop_pf. Qed.
Print Assumptions c113_interop.

Example c113_interop_witness : forall enc : bool,
  exists response body, posts (http_events (fst (http_run enc))) = [wallet_post response body] /\ snd (http_run enc) = Ok None.
Proof. exact c113_interop_ex. Qed.
