(** How a request is passed makes no difference (C131) *)
From Coq Require Import Lia ZArith.
From Verif Require Import Base BaseFacts Utf8 Utf8Facts Json JsonFacts JsonText JsonTextFacts Base64 Base64Facts Sha256 Serde Url UrlEncoded UrlEncodedFacts
  Object Formats Params Metadata Dcql Effects Jwt Request Response Session X509 SpecCert CertFacts Client Builder Server Jwe ExMatcher ExWallet ExVerifier.
From Verif Require Import Verify Wallet SpecWallet PfWallet MapFacts Spec SpecObject SpecRequest PfRequest PfResolve SpecResponse PfResponse SpecJwe PfJwe SpecBuilder SpecSession StoreFacts
  PfDid PfX509 PfFlow PfBuilder UuidFacts PfSession PfServer PfClient SpecExample PfExample SpecVerifierEx PfExServer PfExInitiate PfText PfInterop.
From Verif Require Import PfPassing.

(** C131: it makes no difference to a wallet whether a request object comes by value or by reference: when the request URI can be sent to and is
    answered with success and the object, every wallet calls the same hooks with the same arguments and comes to the same result, after
    one GET of the request URI. *)
Theorem c131_wallet :
  forall (url_parse : string -> option url) (ssi_header : obj -> option bool) (uri_ok : string -> bool) (w : wallet)
         (client_id : option string) (u : url) (jwt : string) (status : N),
    let get := mk_req "GET" (url_str u) [("Prefer", "OID4VP-1.0.0")] "" in
    uri_ok (url_str u) = true -> utf8_valid jwt = true -> w_http w get = Ok (mk_resp status jwt) -> (200 <= status < 300)%N ->
    let by_reference := validate url_parse ssi_header uri_ok w (mk_ar client_id (ByReference u)) in
    let by_value := validate url_parse ssi_header uri_ok w (mk_ar client_id (ByValue jwt)) in
    snd by_reference = snd by_value /\ fst by_reference = EHttp get :: fst by_value.
Proof. exact c131_wallet_pf. Qed.
Print Assumptions c131_wallet.

Example c131_wallet_witness :
  let v := p_validate (ByReference sample_uri) in let v' := p_validate (ByValue (jwt_of typ_ok sample_request)) in
  (is_ok (snd v) && is_ok (snd v'))%bool = true /\ length (fst v') = 1 /\ length (fst v) = 2.
Proof. exact c131_wallet_ex. Qed.

(** C131: and nothing but such an answer makes a request by reference acceptable: whatever a wallet accepts by reference it accepts by value
    too, as the text its HTTP client returned. *)
Theorem c131_only :
  forall (url_parse : string -> option url) (ssi_header : obj -> option bool) (uri_ok : string -> bool) (w : wallet)
         (client_id : option string) (u : url) (a : aro),
    snd (validate url_parse ssi_header uri_ok w (mk_ar client_id (ByReference u))) = Ok a ->
    exists jwt status, w_http w (mk_req "GET" (url_str u) [("Prefer", "OID4VP-1.0.0")] "") = Ok (mk_resp status jwt) /\ (200 <= status < 300)%N
      /\ snd (validate url_parse ssi_header uri_ok w (mk_ar client_id (ByValue jwt))) = Ok a.
Proof. exact c131_only_pf. Qed.
Print Assumptions c131_only.

Example c131_only_witness : is_ok (snd (p_validate (ByReference sample_uri))) = true.
Proof. exact c131_only_ex. Qed.

(** C131: so for the example wallet: asked for the same by value or by reference it sends the same response, if any, to the same place and gives the
    same answer. *)
Theorem c131_example :
  forall (url_parse : string -> option url) (ssi_header : obj -> option bool) (uri_ok : string -> bool)
    (jwk_ok : obj -> bool) (jwe_encrypt : obj -> obj -> obj -> res string) (lower sign : string -> string) (now : Z)
    (http : http_client) (endpoint : url) (store : list credential) (auto : bool) (p p' : params)
    (client_id : option string) (u : url) (jwt : string) (status : N),
    let get := mk_req "GET" (url_str u) [("Prefer", "OID4VP-1.0.0")] "" in
    let run := authorize url_parse ssi_header uri_ok jwk_ok jwe_encrypt lower sign now http endpoint store auto in
    uri_ok (url_str u) = true -> utf8_valid jwt = true -> http get = Ok (mk_resp status jwt) -> (200 <= status < 300)%N ->
    from_url url_parse (build_request_url endpoint p) endpoint = Ok (mk_ar client_id (ByReference u)) ->
    from_url url_parse (build_request_url endpoint p') endpoint = Ok (mk_ar client_id (ByValue jwt)) ->
    pa_state p = pa_state p' ->
    snd (run p) = snd (run p') /\ fst (run p) = EHttp get :: fst (run p').
Proof. exact c131_example_pf. Qed.
Print Assumptions c131_example.

Example c131_example_witness :
  p_summary false = ([("POST", "https://v.example/resp")], Ok None)
  /\ p_summary true = ([("GET", "https://v.example/req"); ("POST", "https://v.example/resp")], Ok None)
  /\ match from_url simple_parse (build_request_url ex_endpoint (p_asks true)) ex_endpoint with
     | Ok (mk_ar (Some c) (ByReference u)) => (String.eqb c "redirect_uri:https://v.example/resp" && String.eqb (url_str u) "https://v.example/req")%bool
     | _ => false end = true.
Proof. exact c131_example_ex. Qed.

(** C131: so for the verifier: builders that differ only in the way of passing keep, for the same session, the same request object, JWT and query;
    they can differ in the status kept and in the URL given out. *)
Theorem c131_builder :
  forall (url_parse : string -> option url) (b b' : request_builder) (u : uuid) (wm : wallet_metadata)
         (contended contended' : bool) (m m' m1 m1' : store) (dest dest' : url),
    rb_dcql b' = rb_dcql b -> rb_params b' = rb_params b ->
    v_client (rb_verifier b') = v_client (rb_verifier b) -> v_submission (rb_verifier b') = v_submission (rb_verifier b) ->
    build_with_session_id url_parse b u wm contended m = (m1, Ok dest) ->
    build_with_session_id url_parse b' u wm contended' m' = (m1', Ok dest') ->
    exists s s', st_get u m1 = Some s /\ st_get u m1' = Some s'
      /\ s_request s' = s_request s /\ s_jwt s' = s_jwt s /\ s_dcql s' = s_dcql s.
Proof. exact c131_builder_pf. Qed.
Print Assumptions c131_builder.

Example c131_builder_witness :
  built_ok (build_with_session_id simple_parse (toy_builder false toy_client) 7%N toy_wm false []) 7%N = true
  /\ is_ok (snd (build_with_session_id simple_parse (toy_builder true toy_client) 7%N toy_wm false [])) = true
  /\ String.eqb (match snd (build_with_session_id simple_parse (toy_builder true toy_client) 7%N toy_wm false []) with Ok d => url_str d | _ => "" end)
                (match snd (build_with_session_id simple_parse (toy_builder false toy_client) 7%N toy_wm false []) with Ok d => url_str d | _ => "" end) = false.
Proof. exact c131_builder_ex. Qed.

(** C131: and between the two: following either URL, a wallet whose HTTP client gets the session's JWT from the request URI does the same with
    the same result, but for that GET. *)
Theorem c131_followed :
  forall (url_parse : string -> option url) (ssi_header : obj -> option bool) (uri_ok : string -> bool) (w : wallet)
         (b b' : request_builder) (base r : url) (u : uuid) (wm : wallet_metadata) (status : N)
         (contended contended' : bool) (m m' m1 m1' : store) (dest dest' : url) (s' : session),
    rb_dcql b' = rb_dcql b -> rb_params b' = rb_params b ->
    v_client (rb_verifier b') = v_client (rb_verifier b) -> v_submission (rb_verifier b') = v_submission (rb_verifier b) ->
    v_byref (rb_verifier b) = None -> v_byref (rb_verifier b') = Some base ->
    build_with_session_id url_parse b u wm contended m = (m1, Ok dest) ->
    build_with_session_id url_parse b' u wm contended' m' = (m1', Ok dest') ->
    let get := mk_req "GET" (url_str r) [("Prefer", "OID4VP-1.0.0")] "" in
    wallet_endpoint url_parse wm (wm_endpoint (w_metadata w)) ->
    utf8_valid (cl_client_id (v_client (rb_verifier b))) = true ->
    st_get u m1' = Some s' -> utf8_valid (s_jwt s') = true ->
    extended base (uuid_str u) r -> utf8_valid (url_str r) = true -> url_parse (url_str r) = Some r -> uri_ok (url_str r) = true ->
    w_http w get = Ok (mk_resp status (s_jwt s')) -> (200 <= status < 300)%N ->
    let by_value := validate_request url_parse ssi_header uri_ok w dest in
    let by_reference := validate_request url_parse ssi_header uri_ok w dest' in
    snd by_reference = snd by_value /\ fst by_reference = EHttp get :: fst by_value.
Proof. exact c131_followed_pf. Qed.
Print Assumptions c131_followed.

Example c131_followed_witness :
  p_followed false = Ok (1, [], "https://v.example/submit/00000000-0000-0000-0000-000000000007")
  /\ p_followed true = Ok (2, ["https://v.example/req/00000000-0000-0000-0000-000000000007"], "https://v.example/submit/00000000-0000-0000-0000-000000000007").
Proof. exact c131_followed_ex. Qed.
