(** The example verifier at start (C107) *)
From Coq Require Import Lia ZArith.
From Verif Require Import Base BaseFacts Utf8 Utf8Facts Json JsonFacts JsonText JsonTextFacts Serde MapFacts Base64 Base64Facts Sha256 Url UrlEncoded Object
  Formats Params Metadata Dcql Effects Jwt Request Response Verify Did X509 SpecCert CertFacts Client Session Builder Server ExVerifier ExHttp ExWeb ExCache ExStart.
From Verif Require Import Spec SpecObject SpecRequest SpecVerify SpecJwe SpecBuilder SpecSession StoreFacts ParamFacts PfText PfRequest PfResolve PfVerify PfDid PfX509
  PfEncodings PfClient PfBuilder UuidFacts PfSession PfServer SpecVerifierEx PfExServer PfExInitiate SpecJsonText GrammarFacts PfGrammar CacheFacts SpecWeb SpecStart Signer SpecSigner PfSigner SpecEncodings PfWeb.
From Verif Require Import PfStart.

(** C107: with a public URL that names no host the verifier does not start. *)
Theorem c107_hostless :
  forall (secret : Type) (url_parse : string -> option url) (public : secret -> string * string) (secret_bytes : secret -> string)
    (ecdsa : secret -> string -> string) (to_der : cert -> res string) (u : url) (mode : string)
    (obtained : string -> option (secret * cert * string)) (enc_key : obj),
    hostless u -> exists e, startup url_parse public secret_bytes ecdsa to_der u mode obtained enc_key = Err e.
Proof. exact c107_hostless_pf. Qed.
Print Assumptions c107_hostless.

Example c107_hostless_witness :
  hostless (mk_url "https" (Some "me@:8443") "/" false None None) /\ hostless (mk_url "data" None "x" true None None)
  /\ ~ hostless (mk_url "https" (Some "v.example") "/" false None None).
Proof. exact c107_hostless_ex. Qed.

(** C107: once started, the verifier has a certificate and key for the host of its public URL; what it prints is a JSON object
    with that key, both halves, and that certificate; and every request object it signs is signed with the printed key and names
    the printed certificate. *)
Theorem c107_printed :
  forall (secret : Type) (url_parse : string -> option url) (public : secret -> string * string) (secret_bytes : secret -> string)
    (ecdsa : secret -> string -> string) (to_der : cert -> res string) (u : url) (mode : string)
    (obtained : string -> option (secret * cert * string)) (enc_key : obj) (a : adapter) (o : oidf) (authority host : string),
    startup url_parse public secret_bytes ecdsa to_der u mode obtained enc_key = Ok (a, o) ->
    u_auth u = Some authority -> host_in authority host ->
    exists k c der, obtained host = Some (k, c, der) /\ oi_client_id o = host
      /\ config_says (printed_config o) (public k) (secret_bytes k) (b64std_encode der)
      /\ (to_der c = Ok der -> forall body jwt, cl_jwt (v_client (ap_verifier a)) body = Ok jwt ->
          signed_with (ecdsa k) (b64std_encode der) jwt).
Proof. exact c107_printed_pf. Qed.
Print Assumptions c107_printed.

Example c107_printed_witness :
  (exists a o, toy_start "https://me@v.example:8443/" "direct_post" = Ok (a, o) /\ oi_client_id o = "v.example"
     /\ json_of_text (printed_config o) = Some (JObj [("d", JStr "Sw"); ("x", JStr "Sw"); ("x5c", JArr [JStr "Sw=="]); ("y", JStr "S0s")]))
  /\ host_in "me@v.example:8443" "v.example" /\ host_in "[::1]:80" "[::1]".
Proof. exact c107_printed_ex. Qed.

(** C107: and a wallet accepts what is then initiated: if the certificate certifies the key and names the host, the request is
    stored with the printed client id, signed with the printed key and certificate, and passes the X.509 check of every wallet
    that supports ES256. *)
Theorem c107_accepted :
  forall (secret root : Type) (url_parse : string -> option url) (public : secret -> string * string) (secret_bytes : secret -> string)
    (ecdsa : secret -> string -> string) (verifies : string * string -> string -> string -> bool) (spki_key : string -> option (string * string))
    (cert_of_der : string -> option cert) (to_der : cert -> res string) (u : url) (mode : string)
    (obtained : string -> option (secret * cert * string)) (enc_key : obj) (a : adapter) (o : oidf) (authority host : string)
    (k : secret) (c : cert) (der : string) (wm : wallet_metadata) (roots : option (list root))
    (nonce : option string) (fresh id : uuid) (validator : session -> auth_response -> Session.outcome) (m m' : store) calls (j : json),
    signs public ecdsa verifies -> (forall x der, to_der x = Ok der -> cert_of_der der = Some x) ->
    startup url_parse public secret_bytes ecdsa to_der u mode obtained enc_key = Ok (a, o) ->
    u_auth u = Some authority -> host_in authority host ->
    obtained host = Some (k, c, der) -> to_der c = Ok der -> dns_names c [host] -> spki_key (c_spki c) = Some (public k) ->
    alg_supported wm "ES256" ->
    run false validator (initiate_request url_parse a nonce fresh id) m = (m', calls, Ok (RJson 200 j)) ->
    exists sess, st_get id m' = Some sess /\ ro_client_id (s_request sess) = Some ("x509_san_dns:" +:+ oi_client_id o)
      /\ config_says (printed_config o) (public k) (secret_bytes k) (b64std_encode der)
      /\ signed_with (ecdsa k) (b64std_encode der) (s_jwt sess)
      /\ x509_san_validate cert_of_der (p256_from_spki spki_key) verifies wm (s_request sess) (s_jwt sess) roots = Ok tt.
Proof. exact c107_accepted_pf. Qed.
Print Assumptions c107_accepted.

Example c107_accepted_witness :
  signs toy_public toy_ecdsa point_verifies /\ toy_point "K" = Some (toy_public "K")
  /\ match toy_start "https://v.example/" "direct_post.jwt" with
     | Ok (a, o) => match run false (app_validator toy_open) (initiate_request simple_parse a (Some "n") 1%N 7%N) [] with
                    | (m', _, Ok (RJson 200 _)) =>
                        match st_get 7%N m' with
                        | Some s => x509_san_validate spki_cert (p256_from_spki toy_point) point_verifies did_wallet (s_request s) (s_jwt s) (None : option (list nat))
                        | None => Err "not stored"
                        end
                    | _ => Err "failed"
                    end
     | Err e => Err e
     end = Ok tt.
Proof. exact c107_accepted_ex. Qed.

(** C107: the verifier asks for encrypted responses exactly if it was started with the mode direct_post.jwt, and otherwise for
    plain ones. *)
Theorem c107_mode :
  forall (secret : Type) (url_parse : string -> option url) (public : secret -> string * string) (secret_bytes : secret -> string)
    (ecdsa : secret -> string -> string) (to_der : cert -> res string) (u : url) (mode : string)
    (obtained : string -> option (secret * cert * string)) (enc_key : obj) (a : adapter) (o : oidf)
    (nonce : option string) (fresh id : uuid) (validator : session -> auth_response -> Session.outcome) (m m' : store) calls (j : json),
    startup url_parse public secret_bytes ecdsa to_der u mode obtained enc_key = Ok (a, o) ->
    run false validator (initiate_request url_parse a nonce fresh id) m = (m', calls, Ok (RJson 200 j)) ->
    exists sess dns n response encrypted, st_get id m' = Some sess
      /\ asks (aro_to_obj (s_request sess)) dns n enc_key encrypted response
      /\ (encrypted = true <-> mode = "direct_post.jwt").
Proof. exact c107_mode_pf. Qed.
Print Assumptions c107_mode.

Example c107_mode_witness :
  start_mode "direct_post.jwt" = Some (JStr "direct_post.jwt") /\ start_mode "direct_post" = Some (JStr "direct_post").
Proof. exact c107_mode_ex. Qed.

(** C107 refuted as "the mode is one of the two that are documented, or the verifier does not start": any other word, though
    printed as the response mode, silently means plain responses. *)
Theorem c107_mode_refuted :
  exists mode a o m' calls j sess,
    mode <> "direct_post" /\ mode <> "direct_post.jwt"
    /\ toy_start "https://v.example/" mode = Ok (a, o)
    /\ run false (app_validator toy_open) (initiate_request simple_parse a (Some "n") 1%N 7%N) [] = (m', calls, Ok (RJson 200 j))
    /\ st_get 7%N m' = Some sess /\ obj_get "response_mode" (aro_to_obj (s_request sess)) = Some (JStr "direct_post").
Proof. exact c107_mode_refuted_pf. Qed.
Print Assumptions c107_mode_refuted.

(** C107: for a public URL without a path of its own, every endpoint that is printed is one the server has, with that method, and
    the response endpoint printed for a session is where its request tells the wallet to respond. *)
Theorem c107_endpoints :
  forall (u : url) (authority session_id : string),
    at_root u authority -> session_id <> "" -> without "/" session_id ->
    (forall method e, In (method, e) (printed_endpoints u session_id) ->
      exists path, e = u_scheme u +:+ "://" +:+ authority +:+ path /\ allowed path method)
    /\ (forall id response, session_id = uuid_str id -> at_session u "response" id response ->
        In ("POST", url_str response) (printed_endpoints u session_id)).
Proof. exact c107_endpoints_pf. Qed.
Print Assumptions c107_endpoints.

Example c107_endpoints_witness :
  at_root (toy_url "https://v.example/") "v.example"
  /\ printed_endpoints (toy_url "https://v.example/") "7" = [("POST", "https://v.example/initiate"); ("GET", "https://v.example/request/7");
       ("POST", "https://v.example/response/7"); ("GET", "https://v.example/status/7")].
Proof. exact c107_endpoints_ex. Qed.

(** C107 refuted for other public URLs: with a path, what is printed differs from what is served and from what wallets are told. *)
Theorem c107_endpoints_refuted :
  exists u id response e path, u_auth u = Some "v.example" /\ at_session u "response" id response
    /\ In ("POST", e) (printed_endpoints u (uuid_str id)) /\ e = "https://v.example" +:+ path /\ ~ known path
    /\ ~ In ("POST", url_str response) (printed_endpoints u (uuid_str id)).
Proof. exact c107_endpoints_refuted_pf. Qed.
Print Assumptions c107_endpoints_refuted.
