(** How parameters are written makes no difference (C135) *)
From Coq Require Import Lia.
From Verif Require Import Base BaseFacts Utf8 Json JsonFacts Url UrlEncoded UrlEncodedFacts Effects Request Response Metadata Verify Session Builder Wallet ExMatcher ExWallet ExHttp ExVerifier ExConsole
  SpecEncodings PfEncodings SpecRequest PfRequest PfResolve SpecHttp PfHttp SpecExample PfExample PfFlow PfBuilder SpecWritten.
From Verif Require Import PfWritten.

(** C135: A wallet does the same, and ends with the same, for two URLs to the same place that say the same, however their parameters are escaped
    and ordered. *)
Theorem c135_url :
  forall (url_parse : string -> option url) (ssi_header : obj -> option bool) (uri_ok : string -> bool) (w : wallet) (u u' : url) (query query' : string),
    u_query u = Some query -> u_query u' = Some query' -> url_authority u = url_authority u' -> u_path u = u_path u' ->
    same_form query query' ->
    validate_request url_parse ssi_header uri_ok w u = validate_request url_parse ssi_header uri_ok w u'.
Proof. exact c135_url_pf. Qed.
Print Assumptions c135_url.

Example c135_url_witness :
  let said := "request=" +:+ jwt_of typ_ok sample_request +:+ "&&client%5fid=x509%5Fsan_dns:v.example" in
  same_form ("client_id=x509_san_dns%3Av.example&request=" +:+ jwt_of typ_ok sample_request) said
  /\ is_ok (snd (validate_request simple_parse any_header (fun _ => true) (url_wallet ["x509_san_dns"]) (toy_url ("openid4vp://w/auth?" +:+ said)))) = true.
Proof. exact c135_url_ex. Qed.

(** C135: The example wallet answers two HTTP requests alike, and does the same, if the parameters it knows are the same in both, however they are
    written and whatever else is there. *)
Theorem c135_wallet :
  forall (url_parse : string -> option url) (ssi_header : obj -> option bool) (uri_ok : string -> bool) (jwk_ok : obj -> bool)
    (jwe_encrypt : obj -> obj -> obj -> res string) (lower sign : string -> string) (now : Z) (http : http_client) (endpoint : url)
    (store : list credential) (auto_consent : bool) (describe : string -> string) (reason : N -> string) (public_url : url) (point : string * string)
    (method path : string) (content_type : option string) (query query' : option string) (body body' : string),
    let answer q b := route url_parse ssi_header uri_ok jwk_ok jwe_encrypt lower sign now http endpoint store auto_consent describe reason public_url point
      (mk_hrequest method path q content_type b) in
    same_for_all (map fst parameters) (query_text query) (query_text query') -> same_for_all (map fst parameters) body body' ->
    answer query body = answer query' body'.
Proof. exact c135_wallet_pf. Qed.
Print Assumptions c135_wallet.

Example c135_wallet_witness : same_for_all (map fst parameters) "nonce=a+b&utm=1&state=%7e" "state=~&n%6Fnce=a%20b".
Proof. exact c135_wallet_ex. Qed.

(** C135: A response is understood alike however its fields are written and whatever else is in the form, and so both example verifiers do the same with it. *)
Theorem c135_response :
  forall (body body' : string), same_for_all ["response"; "vp_token"; "state"] body body' ->
    from_form body = from_form body'
    /\ (utf8_valid body = utf8_valid body' ->
        (forall url_parse adapter sid, handler url_parse adapter (HResponse sid body) = handler url_parse adapter (HResponse sid body'))
        /\ forall sid, chandler (CResponse sid body) = chandler (CResponse sid body')).
Proof. exact c135_response_pf. Qed.
Print Assumptions c135_response.

Example c135_response_witness :
  same_for_all ["response"; "vp_token"; "state"] "state=1&vp_token=%7B%22a%22:[]}" "lang=en&vp_token={%22a%22:%5b%5d}&state=%31" /\ is_ok (from_form "state=1&vp_token=%7B%22a%22:[]}") = true.
Proof. exact c135_response_ex. Qed.

(** C135: What the example wallet makes of a request is a URL at its endpoint that says what the endpoint's own query says, then what the request
    said, and nothing else. *)
Theorem c135_endpoint :
  forall (endpoint : url) (p : params) (own : list (string * string)), texts p -> form_text (query_text (u_query endpoint)) own ->
    let u := build_request_url endpoint p in
    exists query, u = mk_url (u_scheme endpoint) (u_auth endpoint) (u_path endpoint) (u_opaque endpoint) (Some query) (u_frag endpoint)
      /\ form_text query (own ++ fields_of p).
Proof. exact c135_endpoint_pf. Qed.
Print Assumptions c135_endpoint.

Example c135_endpoint_witness :
  form_text (query_text (Some "tenant=a%20b&")) [("tenant", "a b")] /\ texts ex_direct
  /\ option_map form_parse (u_query (build_request_url (set_query ex_endpoint "tenant=a%20b&") (mk_params (Some "c") None None None None (Some "s") None None None))) = Some [("tenant", "a b"); ("client_id", "c"); ("state", "s")].
Proof. exact c135_endpoint_ex. Qed.

(** C135: If the endpoint's own query names a client, every request that names one is refused, and nothing is sent. *)
Theorem c135_clash :
  forall (url_parse : string -> option url) (ssi_header : obj -> option bool) (uri_ok : string -> bool) (jwk_ok : obj -> bool)
    (jwe_encrypt : obj -> obj -> obj -> res string) (lower sign : string -> string) (now : Z) (http : http_client) (endpoint : url)
    (store : list credential) (auto_consent : bool) (p : params) (own : list (string * string)) (v : string),
    texts p -> form_text (query_text (u_query endpoint)) own -> In ("client_id", v) own -> pa_client_id p <> None ->
    exists e, authorize url_parse ssi_header uri_ok jwk_ok jwe_encrypt lower sign now http endpoint store auto_consent p = ([], Err e).
Proof. exact c135_clash_pf. Qed.
Print Assumptions c135_clash.

Example c135_clash_witness :
  form_text (query_text (Some "client_id=w")) [("client_id", "w")] /\ texts (mk_params (Some "c") (Some "j") None None None None None None None).
Proof. exact c135_clash_ex. Qed.

(** C135: If it has nothing to do with requests, the endpoint's own query makes no difference to a request that comes as an object or a link to one. *)
Theorem c135_own :
  forall (url_parse : string -> option url) (ssi_header : obj -> option bool) (uri_ok : string -> bool) (jwk_ok : obj -> bool)
    (jwe_encrypt : obj -> obj -> obj -> res string) (lower sign : string -> string) (now : Z) (http : http_client) (endpoint : url)
    (store : list credential) (auto_consent : bool) (p : params) (own : list (string * string)),
    texts p -> form_text (query_text (u_query endpoint)) own -> (forall k v, In (k, v) own -> ~ In k ["client_id"; "request"; "request_uri"]) ->
    (pa_request p <> None \/ exists text u, pa_request_uri p = Some text /\ url_parse text = Some u) ->
    let bare := mk_url (u_scheme endpoint) (u_auth endpoint) (u_path endpoint) (u_opaque endpoint) None (u_frag endpoint) in
    authorize url_parse ssi_header uri_ok jwk_ok jwe_encrypt lower sign now http endpoint store auto_consent p
    = authorize url_parse ssi_header uri_ok jwk_ok jwe_encrypt lower sign now http bare store auto_consent p.
Proof. exact c135_own_pf. Qed.
Print Assumptions c135_own.

Example c135_own_witness :
  form_text (query_text (Some "tenant=a")) [("tenant", "a")] /\ (forall k v, In (k, v) [("tenant", "a")] -> ~ In k ["client_id"; "request"; "request_uri"])
  /\ pa_request (mk_params (Some "c") (Some "j") None None None None None None None) <> None.
Proof. exact c135_own_ex. Qed.
