(** The two examples together, with the hosts of the URL standard (C115) *)
From Coq Require Import Lia ZArith.
From Verif Require Import Base BaseFacts Utf8 Utf8Facts Json JsonFacts JsonText JsonTextFacts Base64 Base64Facts Sha256 Serde Url UrlEncoded UrlEncodedFacts
  Object Formats Params Metadata Dcql Effects Jwt Request Response Session X509 SpecCert CertFacts Client Builder Server Jwe ExMatcher ExWallet ExVerifier.
From Verif Require Import Verify Wallet SpecWallet PfWallet MapFacts Spec SpecObject SpecRequest PfRequest PfResolve SpecResponse PfResponse SpecJwe PfJwe SpecBuilder SpecSession StoreFacts
  PfBuilder UuidFacts PfSession PfServer PfClient SpecExample PfExample SpecVerifierEx PfExServer PfExInitiate PfText PfMetadata PfInterop.
From Verif Require Import WebUrl WebHost SpecWebUrl SpecHost PfWebUrl PfWebFlow HttpUri SpecHttpUri PfHttpUri PfHttpFlow PfHost PfHostUrl.
From Verif Require Import PfHostFlow.

(** C115: the two examples work together, with URLs and hosts read as the URL standard says: nothing is assumed of URLs but
    that international names are turned into names that stay as they are, that the base URL of the verifier is a web URL with
    a plain host name and that it is not too long. *)
Theorem c115_interop
  : forall (key : Type) (idna : string -> option string) (ssi_header : obj -> option bool)
      (jwk_ok : obj -> bool) (jwe_encrypt : obj -> obj -> obj -> res string) (jwe_open : string -> res string)
      (lower sign : string -> string) (now : Z)
      (to_der : cert -> res string) (c : cert) (s : signer key) (alg : string) (k : obj) (public : url) (encrypted : bool) (a : adapter)
      (nonce : option string) (fresh id : uuid) (m m1 : store) (answer : obj) (query : string)
      (http : http_client) (credentials : list credential) (p : params),
    idna_ok idna ->
    let web := web_parse (web_domain idna) web_ipv6 in
    (* the verifier, at a web URL read from a text, not much shorter than what HTTP allows *)
    (exists t, web t = Some public) ->
    special (u_scheme public) -> plain_host_name public -> at_most 65488 public ->
    app_new web to_der c s k public encrypted = Ok a -> (id < 2 ^ 128)%N ->
    sg_alg s = Ok alg -> utf8_valid alg = true ->
    (forall certs h, x5c_header alg certs = JObj h -> ssi_header h = Some true) ->
    (forall d, certified c d -> utf8_valid d = true) -> (forall n, nonce = Some n -> utf8_valid n = true) ->
    jwf (JObj k) = true -> jdepth (JObj k) <= 100 ->
    (encrypted = true ->
       text_at "crv" k "P-256"
       /\ forall pub, same_material k pub ->
            jwk_ok pub = true
            /\ forall header claims, exists jwe, jwe_encrypt header claims pub = Ok jwe /\ utf8_valid jwe = true
                 /\ jwe_open jwe = Ok (jprint (JObj claims))) ->
    (* it is asked to initiate a presentation *)
    serves web jwe_open a (HInitiate nonce fresh id) m m1 (RJson 200 (JObj answer)) ->
    (* the network *)
    (forall request response, at_session public "request" id request -> at_session public "response" id response ->
       relays web jwe_open a id request response m1 http) ->
    (* the wallet, called with the parameters of the authorization URL *)
    text_at "authorization_url" answer (conformance_wallet +:+ "?" +:+ query) -> param_pairs p = form_parse query ->
    clock_ok now -> (forall x, In x credentials -> utf8_valid (mc_raw x) = true) ->
    (exists x, In x credentials /\ is_pid x) ->
    exists endpoint, web conformance_wallet = Some endpoint /\ url_str endpoint = conformance_wallet /\
    let run := authorize web ssi_header web_uri jwk_ok jwe_encrypt lower sign now http endpoint credentials true p in
    exists response body m2 jwt m3 status info,
      at_session public "response" id response
      /\ posts (http_events (fst run)) = [wallet_post response body] /\ snd run = Ok None
      /\ serves web jwe_open a (HRequest (uuid_str id)) m1 m2 (RJwt jwt)
      /\ serves web jwe_open a (HResponse (uuid_str id) body) m2 m3 (RJson 200 (JObj []))
      /\ serves web jwe_open a (HStatus (uuid_str id)) m3 m3 (RJson 200 status)
      /\ says_success status info
      /\ if encrypted
         then exists claims i x dns names,
                members_are info [("message", JStr "JARM response decrypted and verified"); ("decrypted_payload", JObj claims)]
                /\ claims_of claims [("pid", [i])] None /\ In x credentials /\ is_pid x /\ dns_names c (dns :: names)
                /\ presented sign now (match nonce with Some n => n | None => uuid_str fresh end) ("x509_san_dns:" +:+ dns) (mc_raw x) i
         else members_are info [("message", JStr "Verification successful"); ("credentials_received", JInt 1)].
Proof. exact c115_interop_pf. Qed.
Print Assumptions c115_interop.

Example c115_interop_witness : forall enc : bool,
  exists response body, posts (http_events (fst (host_run enc))) = [wallet_post response body] /\ snd (host_run enc) = Ok None.
Proof. exact c115_interop_ex. Qed.
