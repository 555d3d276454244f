(** Request builder (C29-C33) *)
From Coq Require Import Lia.
From Verif Require Import Base BaseFacts Utf8 Utf8Facts Json JsonFacts JsonText JsonTextFacts Base64 Base64Facts UrlEncoded UrlEncodedFacts Url Serde Object Formats Params Metadata Dcql Effects Jwt Request Verify Did X509 Client Response Session Builder.
From Verif Require Import MapFacts Spec ParamFacts SpecObject SpecRequest SpecVerify SpecBuilder StoreFacts PfRequest PfResolve PfVerify PfDid PfX509 PfText PfClient.
From Verif Require Import PfBuilder.

(** C29: when a request is built, the store holds under the session id the session of that request: the request
    object made of the builder's parameters, the JWT that the client produced for it, the query, and the status
    that fits the way of conveying; the URL carries the client identifier and the request, on the wallet's
    endpoint; no other session is touched. *)
Theorem c29_build :
  forall (url_parse : string -> option url) (b : request_builder) (u : uuid) (wm : wallet_metadata)
    (contended : bool) (m m' : store) (dest : url),
    build_with_session_id url_parse b u wm contended m = (m', Ok dest) ->
    exists s ind endpoint,
      st_get u m' = Some s /\ (forall u', u' <> u -> st_get u' m' = st_get u' m)
      /\ s_uuid s = u /\ rb_dcql b = Some (s_dcql s)
      /\ built_object b (s_dcql s) u (aro_to_obj (s_request s))
      /\ cl_jwt (v_client (rb_verifier b)) (s_request s) = Ok (s_jwt s)
      /\ conveyed (rb_verifier b) s ind /\ wallet_endpoint url_parse wm endpoint
      /\ to_url (mk_ar (Some (cl_client_id (v_client (rb_verifier b)))) ind) endpoint = Ok dest.
Proof. exact c29_build_pf. Qed.
Print Assumptions c29_build.

Example c29_build_witness :
  built_ok (build_with_session_id simple_parse (toy_builder false toy_client) 7%N toy_wm false []) 7%N = true.
Proof. exact c29_build_ex. Qed.

(** C29: [build] is the same with a fresh session id, which it returns; for the Digital Credentials API the
    request is returned instead of a URL, in the same way. *)
Theorem c29_build_dc_api :
  forall (url_parse : string -> option url) (b : request_builder) (fresh u : uuid)
    (contended : bool) (m m' : store) (jwt : string),
    build_dc_api url_parse b fresh contended m = (m', Ok (u, jwt)) ->
    u = fresh /\ exists s,
      st_get u m' = Some s /\ (forall u', u' <> u -> st_get u' m' = st_get u' m)
      /\ s_uuid s = u /\ rb_dcql b = Some (s_dcql s) /\ s_status s = SentRequest /\ s_jwt s = jwt
      /\ built_object b (s_dcql s) u (aro_to_obj (s_request s))
      /\ cl_jwt (v_client (rb_verifier b)) (s_request s) = Ok jwt.
Proof. exact c29_build_dc_api_pf. Qed.
Print Assumptions c29_build_dc_api.

Example c29_build_dc_api_witness :
  built_ok (build_dc_api simple_parse (mk_rb (Some toy_query) (obj_insert "response_mode" (JStr "dc_api") toy_params)
     (rb_verifier (toy_builder true toy_client))) 9%N false []) 9%N = true.
Proof. exact c29_build_dc_api_ex. Qed.

(** C29: [build] returns the fresh session id and otherwise does what building with that id does. *)
Theorem c29_fresh :
  forall (url_parse : string -> option url) (b : request_builder) (fresh u : uuid) (wm : wallet_metadata)
    (contended : bool) (m m' : store) (dest : url),
    build url_parse b fresh wm contended m = (m', Ok (u, dest)) <->
    u = fresh /\ build_with_session_id url_parse b fresh wm contended m = (m', Ok dest).
Proof. exact c29_fresh_pf. Qed.
Print Assumptions c29_fresh.

Example c29_fresh_witness : built_ok (build simple_parse (toy_builder false toy_client) 8%N toy_wm false []) 8%N = true.
Proof. exact c29_fresh_ex. Qed.

(** C29: building succeeds whenever the query, the response type and mode, the nonce and the endpoints are usable,
    the wallet lists the client's prefix, the client signs and the store's lock is free. *)
Theorem c29_succeeds :
  forall (url_parse : string -> option url) (b : request_builder) (u : uuid) (wm : wallet_metadata) (m : store)
    (q : dcql) (mode type nonce : string) (l : list string) (endpoint : url),
    rb_dcql b = Some q ->
    text_at "response_type" (rb_params b) type -> text_at "nonce" (rb_params b) nonce ->
    absent "redirect_uri" (rb_params b) ->
    text_at "response_mode" (rb_params b) mode ->
    ((mode = "direct_post" \/ mode = "direct_post.jwt")
       /\ u_opaque (v_submission (rb_verifier b)) = false
       /\ (forall r, extended (v_submission (rb_verifier b)) (uuid_str u) r -> url_parse (url_str r) <> None)
     \/ (mode = "dc_api" \/ mode = "dc_api.jwt") /\ absent "response_uri" (rb_params b)
        /\ url_parse "https://example.com" <> None) ->
    supported "client_id_prefixes_supported" ["pre-registered"] wm = Ok l -> In (cl_prefix (v_client (rb_verifier b))) l ->
    (forall a, exists jwt, cl_jwt (v_client (rb_verifier b)) a = Ok jwt) ->
    (forall at_, v_byref (rb_verifier b) = Some at_ -> u_opaque at_ = false) ->
    wallet_endpoint url_parse wm endpoint ->
    exists m' dest, build_with_session_id url_parse b u wm false m = (m', Ok dest).
Proof. exact c29_succeeds_pf. Qed.
Print Assumptions c29_succeeds.

Example c29_succeeds_witness :
  u_opaque (v_submission (rb_verifier (toy_builder true toy_client))) = false
  /\ text_at "response_mode" toy_params "direct_post"
  /\ built_ok (build_with_session_id simple_parse (toy_builder true toy_client) 7%N toy_wm false []) 7%N = false
  /\ fst (build_with_session_id simple_parse (toy_builder true toy_client) 7%N toy_wm false []) <> [].
Proof. exact c29_succeeds_ex. Qed.

(** C29: building with a session id that is in use replaces the session under it, its request and its progress
    included. *)
Theorem c29_reuse_refuted :
  exists (url_parse : string -> option url) (b : request_builder) (u : uuid) (wm : wallet_metadata) (m m' : store)
    (s s' : session) (dest : url),
    st_get u m = Some s /\ s_status s = Complete (OSuccess JNull)
    /\ build_with_session_id url_parse b u wm false m = (m', Ok dest)
    /\ st_get u m' = Some s' /\ s_status s' = SentRequest /\ s_jwt s' <> s_jwt s.
Proof. exact c29_reuse_refuted_pf. Qed.
Print Assumptions c29_reuse_refuted.

(** C30: a build that fails leaves the store as it was, whichever of the three build functions is used. *)
Theorem c30_failed_build :
  forall (url_parse : string -> option url) (b : request_builder) (u : uuid) (wm : wallet_metadata)
    (contended : bool) (m : store),
    (forall m' e, build_with_session_id url_parse b u wm contended m = (m', Err e) -> m' = m)
    /\ (forall m' e, build url_parse b u wm contended m = (m', Err e) -> m' = m)
    /\ (forall m' e, build_dc_api url_parse b u contended m = (m', Err e) -> m' = m).
Proof. exact c30_failed_build_pf. Qed.
Print Assumptions c30_failed_build.

Example c30_failed_build_witness :
  build_with_session_id simple_parse (rb_new (rb_verifier (toy_builder true toy_client))) 7%N toy_wm false [] = ([], Err "dcql_query is required")
  /\ build_with_session_id simple_parse (toy_builder true toy_client) 7%N toy_wm true [] = ([], Err "try_lock")
  /\ build_with_session_id simple_parse (toy_builder true (mk_client "x509_hash:abc" "x509_hash" (fun _ => Err "signing"))) 7%N toy_wm false [] = ([], Err "signing").
Proof. exact c30_failed_build_ex. Qed.

(** C31: the response URI of a direct_post request is the submission endpoint with the session id as a further path
    segment; sessions with different ids have different response URIs. *)
Theorem c31_response_uri :
  forall (url_parse : string -> option url) (b b' : request_builder) (u u' : uuid) (wm wm' : wallet_metadata)
    (contended contended' : bool) (m m1 m' m2 : store) (dest dest' : url),
    (u < 2 ^ 128)%N -> (u' < 2 ^ 128)%N -> u <> u' ->
    v_submission (rb_verifier b) = v_submission (rb_verifier b') ->
    (text_at "response_mode" (rb_params b) "direct_post" \/ text_at "response_mode" (rb_params b) "direct_post.jwt") ->
    (text_at "response_mode" (rb_params b') "direct_post" \/ text_at "response_mode" (rb_params b') "direct_post.jwt") ->
    build_with_session_id url_parse b u wm contended m = (m1, Ok dest) ->
    build_with_session_id url_parse b' u' wm' contended' m' = (m2, Ok dest') ->
    exists s s' r r',
      st_get u m1 = Some s /\ st_get u' m2 = Some s'
      /\ extended (v_submission (rb_verifier b)) (uuid_str u) r /\ extended (v_submission (rb_verifier b)) (uuid_str u') r'
      /\ text_at "response_uri" (aro_to_obj (s_request s)) (url_str r)
      /\ text_at "response_uri" (aro_to_obj (s_request s')) (url_str r')
      /\ url_str r <> url_str r'.
Proof. exact c31_response_uri_pf. Qed.
Print Assumptions c31_response_uri.

Example c31_response_uri_witness :
  uuid_str 7%N = "00000000-0000-0000-0000-000000000007"
  /\ uuid_str 1512366075204170947332355369683137040%N = "01234567-89ab-cdef-fedc-ba9876543210"
  /\ rmap url_str (push_segment (toy_url "https://v.example/submit") (uuid_str 7%N)) = Ok "https://v.example/submit/00000000-0000-0000-0000-000000000007"
  /\ rmap url_str (push_segment (toy_url "https://v.example/") (uuid_str 7%N)) = Ok "https://v.example/00000000-0000-0000-0000-000000000007".
Proof. exact c31_response_uri_ex. Qed.

(** C31: so have requests conveyed by reference their own request URI per session. *)
Theorem c31_request_uri :
  forall (url_parse : string -> option url) (b b' : request_builder) (u u' : uuid) (wm wm' : wallet_metadata)
    (contended contended' : bool) (m m1 m' m2 : store) (dest dest' at_ endpoint endpoint' : url),
    (u < 2 ^ 128)%N -> (u' < 2 ^ 128)%N -> u <> u' ->
    v_byref (rb_verifier b) = Some at_ -> v_byref (rb_verifier b') = Some at_ ->
    wallet_endpoint url_parse wm endpoint -> wallet_endpoint url_parse wm' endpoint' ->
    build_with_session_id url_parse b u wm contended m = (m1, Ok dest) ->
    build_with_session_id url_parse b' u' wm' contended' m' = (m2, Ok dest') ->
    exists r r',
      extended at_ (uuid_str u) r /\ extended at_ (uuid_str u') r'
      /\ to_url (mk_ar (Some (cl_client_id (v_client (rb_verifier b)))) (ByReference r)) endpoint = Ok dest
      /\ to_url (mk_ar (Some (cl_client_id (v_client (rb_verifier b')))) (ByReference r')) endpoint' = Ok dest'
      /\ url_str r <> url_str r'.
Proof. exact c31_request_uri_pf. Qed.
Print Assumptions c31_request_uri.

Example c31_request_uri_witness :
  match snd (build_with_session_id simple_parse (toy_builder true toy_client) 7%N toy_wm false []) with
  | Ok d => url_str d | Err e => e end
  = "https://w.example/authorize?client_id=x509_hash%3Aabc&request_uri=https%3A%2F%2Fv.example%2Freq%2F00000000-0000-0000-0000-000000000007".
Proof. exact c31_request_uri_ex. Qed.

(** C32: what the wallet reads from the URL on its own endpoint is the request as it was conveyed, and resolving it
    gives the stored request object and JWT: directly by value, and by reference when the request URI serves the
    JWT stored for the session. *)
Theorem c32_understood :
  forall (url_parse : string -> option url) (ssi_header : obj -> option bool) (uri_ok : string -> bool)
    (http : http_req -> res http_resp) (b : request_builder) (u : uuid) (wm : wallet_metadata)
    (contended : bool) (m m' : store) (dest endpoint : url),
    build_with_session_id url_parse b u wm contended m = (m', Ok dest) ->
    wallet_endpoint url_parse wm endpoint ->
    readable_client ssi_header (v_client (rb_verifier b)) ->
    utf8_valid (cl_client_id (v_client (rb_verifier b))) = true ->
    exists s ind,
      st_get u m' = Some s /\ conveyed (rb_verifier b) s ind
      /\ (jwf (aro_to_json (s_request s)) = true -> jdepth (aro_to_json (s_request s)) <= 127 ->
          (forall r, ind = ByReference r -> utf8_valid (url_str r) = true /\ url_parse (url_str r) = Some r
             /\ uri_ok (url_str r) = true
             /\ exists status, (200 <= status < 300)%N
                /\ forall rq, rq_method rq = "GET" -> rq_uri rq = url_str r -> http rq = Ok (mk_resp status (s_jwt s))) ->
          from_url url_parse dest endpoint = Ok (mk_ar (Some (cl_client_id (v_client (rb_verifier b)))) ind)
          /\ snd (resolve_request url_parse ssi_header uri_ok http (mk_ar (Some (cl_client_id (v_client (rb_verifier b)))) ind))
             = Ok (s_request s, Some (s_jwt s))).
Proof. exact c32_understood_pf. Qed.
Print Assumptions c32_understood.

Example c32_understood_witness :
  understood true (x509_hash_client toy_der toy_chain (toy_signer "K")) = Ok "same"
  /\ understood false (x509_hash_client toy_der toy_chain (toy_signer "K")) = Ok "same"
  /\ understood false (did_client String.eqb toy_resolver ("did:web:v.example" +:+ "#" +:+ "1") (toy_signer "K")) = Ok "same".
Proof. exact c32_understood_ex. Qed.

(** C32: the JWTs of the library's three clients can be read back, so that the above applies to them. *)
Theorem c32_clients :
  forall (key : Type) (ssi_header : obj -> option bool) (key_eqb : key -> key -> bool) (resolver : string -> res key)
    (to_der : cert -> res string) (s : signer key) (alg vm : string) (x5c : list cert) (c : client),
    sg_alg s = Ok alg -> utf8_valid alg = true ->
    (utf8_valid vm = true -> (forall h, did_header alg vm = JObj h -> ssi_header h = Some true) ->
       did_client key_eqb resolver vm s = Ok c -> readable_client ssi_header c)
    /\ ((forall certs h, x5c_header alg certs = JObj h -> ssi_header h = Some true) ->
        x509_hash_client to_der x5c s = Ok c \/ x509_san_client to_der x5c s = Ok c -> readable_client ssi_header c).
Proof. exact c32_clients_pf. Qed.
Print Assumptions c32_clients.

Example c32_clients_witness :
  sg_alg (toy_signer "K") = Ok "ES256"
  /\ is_ok (did_client String.eqb toy_resolver ("did:web:v.example" +:+ "#" +:+ "1") (toy_signer "K")) = true
  /\ is_ok (x509_hash_client toy_der toy_chain (toy_signer "K")) = true
  /\ is_ok (x509_san_client toy_der toy_chain (toy_signer "K")) = true.
Proof. exact c32_clients_ex. Qed.

(** C33: no request is built for a wallet whose metadata do not list the client's prefix (with the default
    ["pre-registered"] when they list nothing), and nothing is stored. *)
Theorem c33_prefix :
  forall (url_parse : string -> option url) (b : request_builder) (u : uuid) (wm : wallet_metadata)
    (contended : bool) (m : store),
    (forall l, supported "client_id_prefixes_supported" ["pre-registered"] wm = Ok l -> ~ In (cl_prefix (v_client (rb_verifier b))) l) ->
    (exists e, build_with_session_id url_parse b u wm contended m = (m, Err e))
    /\ (exists e, build url_parse b u wm contended m = (m, Err e)).
Proof. exact c33_prefix_pf. Qed.
Print Assumptions c33_prefix.

Example c33_prefix_witness :
  build_with_session_id simple_parse (toy_builder true (mk_client "openid_federation:https://v.example" "openid_federation" (fun _ => Ok "j"))) 7%N toy_wm false []
  = ([], Err "wallet does not support prefix")
  /\ supported "client_id_prefixes_supported" ["pre-registered"] toy_wm = Ok ["x509_hash"; "x509_san_dns"; "decentralized_identifier"].
Proof. exact c33_prefix_ex. Qed.
