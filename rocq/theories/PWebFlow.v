(** URLs of the standard in the flows (C112) *)
From Coq Require Import Lia ZArith.
From Verif Require Import Base BaseFacts Utf8 Utf8Facts Json JsonFacts JsonText JsonTextFacts Base64 Base64Facts Sha256 Serde Url UrlEncoded UrlEncodedFacts
  Object Formats Params Metadata Dcql Effects Jwt Request Response Session X509 SpecCert CertFacts Client Builder Server Jwe ExMatcher ExWallet ExVerifier.
From Verif Require Import MapFacts Spec SpecObject SpecRequest PfRequest PfResolve SpecResponse PfResponse SpecJwe PfJwe SpecBuilder SpecSession StoreFacts
  PfBuilder UuidFacts PfSession PfServer PfClient SpecExample PfExample SpecVerifierEx PfExServer PfExInitiate PfText PfMetadata PfInterop.
From Verif Require Import WebUrl SpecWebUrl PfWebUrl.
From Verif Require Import PfWebFlow.

(** C112: the URLs of a session are read as they are written: a verifier whose base URL was read from a text gives
    every session a request URL and a response URL that are read as the same URL again, and that is plain text; the
    same for an endpoint of its own choice extended by the session. *)
Theorem c112_sessions :
  forall domain ipv6 : string -> option string, hosts_ok domain ipv6 ->
    forall t public, web_parse domain ipv6 t = Some public ->
      (forall id r, extended public (uuid_str id) r ->
         web_parse domain ipv6 (url_str r) = Some r /\ utf8_valid (url_str r) = true)
      /\ (forall segment id r, In segment ["request"; "response"; "status"] -> at_session public segment id r ->
            web_parse domain ipv6 (url_str r) = Some r /\ utf8_valid (url_str r) = true).
Proof. exact c112_sessions_pf. Qed.
Print Assumptions c112_sessions.

Example c112_sessions_witness :
  exists public r, web "HTTPS://V.example:443/a/../base/" = Some public /\ at_session public "request" 7%N r
    /\ url_str r = "https://v.example/base/request/00000000-0000-0000-0000-000000000007".
Proof. exact c112_sessions_ex. Qed.

(** C112: wallet metadata whose endpoint is written in any way the URL standard allows: what is written back has the
    endpoint in the form in which it prints and every other parameter as it was, and is read as the same view. *)
Theorem c112_metadata :
  forall domain ipv6 : string -> option string, hosts_ok domain ipv6 ->
    forall (o : obj) (w : wallet_metadata),
      jsorted (JObj o) = true -> wm_of_obj (web_parse domain ipv6) o = Ok w ->
      (forall k, k <> "authorization_endpoint" -> obj_get k (wm_to_obj (web_parse domain ipv6) w) = obj_get k o)
      /\ (exists s, obj_get "authorization_endpoint" o = Some (JStr s)
            /\ web_parse domain ipv6 s = Some (wm_endpoint w) /\ normal domain ipv6 (wm_endpoint w)
            /\ obj_get "authorization_endpoint" (wm_to_obj (web_parse domain ipv6) w) = Some (JStr (url_str (wm_endpoint w))))
      /\ wm_of_obj (web_parse domain ipv6) (wm_to_obj (web_parse domain ipv6) w)
         = Ok (mk_wm (wm_to_obj (web_parse domain ipv6) w) (wm_endpoint w) (wm_formats w)).
Proof. exact c112_metadata_pf. Qed.
Print Assumptions c112_metadata.

Example c112_metadata_witness :
  exists w, wm_of_obj web sample_metadata = Ok w /\ jsorted (JObj sample_metadata) = true.
Proof. exact c112_metadata_ex. Qed.

(** C112: the two examples work together whatever URL the verifier is started at: as C79, for the URL reader of the
    standard, so that nothing is assumed of the URLs but that the HTTP client takes them. *)
Theorem c112_interop
  : forall (key : Type) (domain ipv6 : string -> option string) (ssi_header : obj -> option bool) (uri_ok : string -> bool)
      (jwk_ok : obj -> bool) (jwe_encrypt : obj -> obj -> obj -> res string) (jwe_open : string -> res string)
      (lower sign : string -> string) (now : Z)
      (to_der : cert -> res string) (c : cert) (s : signer key) (alg : string) (k : obj) (public : url) (encrypted : bool) (a : adapter)
      (nonce : option string) (fresh id : uuid) (m m1 : store) (answer : obj) (query : string)
      (http : http_client) (endpoint : url) (credentials : list credential) (p : params),
    hosts_ok domain ipv6 ->
    (* the verifier, at a URL read from a text *)
    (exists t, web_parse domain ipv6 t = Some public) ->
    app_new (web_parse domain ipv6) to_der c s k public encrypted = Ok a -> (id < 2 ^ 128)%N ->
    sg_alg s = Ok alg -> utf8_valid alg = true ->
    (forall certs h, x5c_header alg certs = JObj h -> ssi_header h = Some true) ->
    (forall d, certified c d -> utf8_valid d = true) -> (forall n, nonce = Some n -> utf8_valid n = true) ->
    jwf (JObj k) = true -> jdepth (JObj k) <= 100 ->
    (encrypted = true ->
       text_at "crv" k "P-256"
       /\ forall pub, same_material k pub ->
            jwk_ok pub = true
            /\ forall header claims, exists jwe, jwe_encrypt header claims pub = Ok jwe /\ utf8_valid jwe = true
                 /\ jwe_open jwe = Ok (jprint (JObj claims))) ->
    (* it is asked to initiate a presentation *)
    serves (web_parse domain ipv6) jwe_open a (HInitiate nonce fresh id) m m1 (RJson 200 (JObj answer)) ->
    (* the network *)
    (forall segment r, In segment ["request"; "response"] -> at_session public segment id r -> uri_ok (url_str r) = true) ->
    (forall request response, at_session public "request" id request -> at_session public "response" id response ->
       relays (web_parse domain ipv6) jwe_open a id request response m1 http) ->
    (* the wallet, called with the parameters of the authorization URL *)
    web_parse domain ipv6 conformance_wallet = Some endpoint ->
    text_at "authorization_url" answer (url_str endpoint +:+ "?" +:+ query) -> param_pairs p = form_parse query ->
    clock_ok now -> (forall x, In x credentials -> utf8_valid (mc_raw x) = true) ->
    (exists x, In x credentials /\ is_pid x) ->
    let run := authorize (web_parse domain ipv6) ssi_header uri_ok jwk_ok jwe_encrypt lower sign now http endpoint credentials true p in
    exists response body m2 jwt m3 status info,
      at_session public "response" id response
      /\ posts (http_events (fst run)) = [wallet_post response body] /\ snd run = Ok None
      /\ serves (web_parse domain ipv6) jwe_open a (HRequest (uuid_str id)) m1 m2 (RJwt jwt)
      /\ serves (web_parse domain ipv6) jwe_open a (HResponse (uuid_str id) body) m2 m3 (RJson 200 (JObj []))
      /\ serves (web_parse domain ipv6) jwe_open a (HStatus (uuid_str id)) m3 m3 (RJson 200 status)
      /\ says_success status info
      /\ if encrypted
         then exists claims i x dns names,
                members_are info [("message", JStr "JARM response decrypted and verified"); ("decrypted_payload", JObj claims)]
                /\ claims_of claims [("pid", [i])] None /\ In x credentials /\ is_pid x /\ dns_names c (dns :: names)
                /\ presented sign now (match nonce with Some n => n | None => uuid_str fresh end) ("x509_san_dns:" +:+ dns) (mc_raw x) i
         else members_are info [("message", JStr "Verification successful"); ("credentials_received", JInt 1)].
Proof. exact c112_interop_pf. Qed.
Print Assumptions c112_interop.

Example c112_interop_witness : forall enc : bool,
  exists response body, posts (http_events (fst (web_run enc))) = [wallet_post response body] /\ snd (web_run enc) = Ok None.
Proof. exact c112_interop_ex. Qed.
