(** Resolution of authorization requests (C13-C17, C69) *)
From Coq Require Import Lia.
From Verif Require Import Base BaseFacts Utf8 Json JsonFacts JsonText JsonTextFacts Serde MapFacts Base64 Base64Facts Url UrlEncoded Object Formats Params
  Metadata Dcql Effects Jwt Request Verify Client Spec SpecObject SpecRequest ParamFacts PfRequest.
From Verif Require Import PfResolve.

(** C13: validating (and resolving) a request sends exactly one HTTP request, the GET of the request URI,
    when the request is by reference, and none otherwise, whatever the server, the wallet's metadata and
    its hooks do. *)
Theorem c13_traffic :
  forall (url_parse : string -> option url) (ssi_header : obj -> option bool) (uri_ok : string -> bool)
    (w : wallet) (r : auth_request),
    let traffic :=
      match ar_indirection r with
      | ByReference u =>
          if uri_ok (url_str u)
          then [mk_req "GET" (url_str u) [("Prefer", "OID4VP-1.0.0")] EmptyString] else []
      | _ => []
      end in
    http_events (fst (validate url_parse ssi_header uri_ok w r)) = traffic
    /\ http_events (fst (resolve_request url_parse ssi_header uri_ok (w_http w) r)) = traffic.
Proof. exact c13_traffic_pf. Qed.
Print Assumptions c13_traffic.

Example c13_traffic_witness :
  let w := lax_wallet ["x509_san_dns"] (serve 200 (jwt_of typ_ok sample_request)) in
  let v := validate simple_parse any_header (fun _ => true) w
             (mk_ar (Some "x509_san_dns:v.example") (ByReference sample_uri)) in
  http_events (fst v) = [mk_req "GET" "https://v.example/req" [("Prefer", "OID4VP-1.0.0")] ""]
  /\ length (fst v) = 2 /\ is_ok (snd v) = true.
Proof. exact c13_traffic_ex. Qed.

(** C14: unless the outer client_id is a redirect_uri identifier, a JWT is only resolved if its protected
    header says typ = oauth-authz-req+jwt. *)
Theorem c14_typ :
  forall (url_parse : string -> option url) (ssi_header : obj -> option bool) (uri_ok : string -> bool)
    (http : http_client) (r : auth_request) (a : aro) (jwt : string),
    (forall rest, ar_client_id r <> Some ("redirect_uri:" +:+ rest)) ->
    snd (resolve_request url_parse ssi_header uri_ok http r) = Ok (a, Some jwt) ->
    exists h, protected_header jwt h /\ obj_get "typ" h = Some (JStr "oauth-authz-req+jwt").
Proof. exact c14_typ_pf. Qed.
Print Assumptions c14_typ.

Example c14_typ_witness :
  is_ok (snd (resolve_request simple_parse any_header (fun _ => true) (serve 200 "")
    (mk_ar (Some "x509_san_dns:v.example") (ByValue (jwt_of typ_ok sample_request))))) = true
  /\ snd (resolve_request simple_parse any_header (fun _ => true) (serve 200 "")
    (mk_ar (Some "x509_san_dns:v.example") (ByValue (jwt_of [("alg", JStr "ES256"); ("typ", JStr "JWT")] sample_request))))
    = Err "wrong typ".
Proof. exact c14_typ_ex. Qed.

(** C14: with an outer redirect_uri client_id, a JWT without the right typ is validated, although the request
    object does not name a redirect_uri client (it goes to the pre-registered hook). *)
Theorem c14_bypass_refuted :
  exists w r a h jwt, ar_indirection r = ByValue jwt /\ protected_header jwt h /\ obj_get "typ" h = Some (JStr "JWT")
    /\ snd (validate simple_parse any_header (fun _ => true) w r) = Ok a /\ ro_scheme a = None
    /\ map (fun e => fst (fst e)) (hook_events (fst (validate simple_parse any_header (fun _ => true) w r))) = [HPreregistered].
Proof. exact c14_bypass_refuted_pf. Qed.
Print Assumptions c14_bypass_refuted.

(** C15: a request by reference is only resolved from a 2xx answer with a UTF-8 body, and the JWT is that
    body; in every other case validation fails without running a hook. *)
Theorem c15_body :
  forall (url_parse : string -> option url) (ssi_header : obj -> option bool) (uri_ok : string -> bool)
    (w : wallet) (r : auth_request) (u : url),
    ar_indirection r = ByReference u ->
    (forall a jwt, snd (resolve_request url_parse ssi_header uri_ok (w_http w) r) = Ok (a, jwt) ->
       exists rs, w_http w (mk_req "GET" (url_str u) [("Prefer", "OID4VP-1.0.0")] EmptyString) = Ok rs
         /\ (200 <= rs_status rs < 300)%N /\ utf8_valid (rs_body rs) = true /\ jwt = Some (rs_body rs))
    /\ (forall e, snd (resolve_request url_parse ssi_header uri_ok (w_http w) r) = Err e ->
         snd (validate url_parse ssi_header uri_ok w r) = Err e
         /\ hook_events (fst (validate url_parse ssi_header uri_ok w r)) = []).
Proof. exact c15_body_pf. Qed.
Print Assumptions c15_body.

Example c15_body_witness :
  let r := mk_ar (Some "x509_san_dns:v.example") (ByReference sample_uri) in
  let j := jwt_of typ_ok sample_request in
  let go s b := snd (resolve_request simple_parse any_header (fun _ => true) (serve s b) r) in
  is_ok (go 200%N j) = true /\ is_ok (go 299%N j) = true /\ go 300%N j = Err "unsuccessful"
  /\ go 199%N j = Err "unsuccessful" /\ go 200%N (String "255" "") = Err "not UTF-8".
Proof. exact c15_body_ex. Qed.

(** C16: a validated request has equal outer and inner client identifiers whenever both are present. *)
Theorem c16_client_ids :
  forall (url_parse : string -> option url) (ssi_header : obj -> option bool) (uri_ok : string -> bool)
    (w : wallet) (r : auth_request) (a : aro) (outer : string),
    snd (validate url_parse ssi_header uri_ok w r) = Ok a ->
    ar_client_id r = Some outer ->
    text_at "client_id" (aro_to_obj a) outer /\ ro_client_id a = Some outer
    \/ absent "client_id" (aro_to_obj a) /\ ro_client_id a = None.
Proof. exact c16_client_ids_pf. Qed.
Print Assumptions c16_client_ids.

Example c16_client_ids_witness :
  let w := lax_wallet ["x509_san_dns"] (serve 404 "") in
  let j := jwt_of typ_ok sample_request in
  is_ok (snd (validate simple_parse any_header (fun _ => true) w (mk_ar (Some "x509_san_dns:v.example") (ByValue j)))) = true
  /\ snd (validate simple_parse any_header (fun _ => true) w (mk_ar (Some "x509_san_dns:other") (ByValue j))) = Err "different client ids".
Proof. exact c16_client_ids_ex. Qed.

(** C16: the comparison happens after verification: a hook already ran for a request whose identifiers
    disagree. *)
Theorem c16_late_refuted :
  exists w r, snd (validate simple_parse any_header (fun _ => true) w r) = Err "different client ids"
    /\ length (hook_events (fst (validate simple_parse any_header (fun _ => true) w r))) = 1.
Proof. exact c16_late_refuted_pf. Qed.
Print Assumptions c16_late_refuted.

(** C16: a request object without client_id is validated whatever the outer client_id is; the hook of the
    outer identifier's prefix does not run, the pre-registered one does. *)
Theorem c16_missing_inner_refuted :
  exists w r a, ar_client_id r = Some "x509_san_dns:bank.example"
    /\ snd (validate simple_parse any_header (fun _ => true) w r) = Ok a
    /\ map (fun e => fst (fst e)) (hook_events (fst (validate simple_parse any_header (fun _ => true) w r))) = [HPreregistered].
Proof. exact c16_missing_inner_refuted_pf. Qed.
Print Assumptions c16_missing_inner_refuted.

(** C17: a request given directly: the object has the outer client_id (if there is one) and otherwise the
    given parameters; no JWT is passed to the hook. *)
Theorem c17_direct :
  forall (url_parse : string -> option url) (ssi_header : obj -> option bool) (uri_ok : string -> bool)
    (http : http_client) (r : auth_request) (o : obj) (a : aro) (jwt : option string),
    ar_indirection r = Direct o ->
    snd (resolve_request url_parse ssi_header uri_ok http r) = Ok (a, jwt) ->
    jwt = None
    /\ (forall c, ar_client_id r = Some c -> ro_client_id a = Some c /\ text_at "client_id" (aro_to_obj a) c)
    /\ (ar_client_id r = None -> aro_to_obj a = o)
    /\ (forall k, k <> "client_id" -> obj_get k (aro_to_obj a) = obj_get k o).
Proof. exact c17_direct_pf. Qed.
Print Assumptions c17_direct.

Example c17_direct_witness :
  is_ok (snd (resolve_request simple_parse any_header (fun _ => true) (serve 404 "")
     (mk_ar (Some "c") (Direct (obj_remove "client_id" sample_request))))) = true.
Proof. exact c17_direct_ex. Qed.

(** C69: a request whose parameters are given directly in a query string can never convey client metadata or
    a DCQL query: every member of the resolved object is text. So in an encrypted response mode it never
    passes validation. *)
Theorem c69_direct_text :
  forall (url_parse : string -> option url) (ssi_header : obj -> option bool) (uri_ok : string -> bool)
    (w : wallet) (query : string) (r : auth_request) (o : obj),
    from_query_params url_parse query = Ok r -> ar_indirection r = Direct o ->
    (forall a jwt, snd (resolve_request url_parse ssi_header uri_ok (w_http w) r) = Ok (a, jwt) ->
       (forall q, aro_dcql a <> Some (Ok q))
       /\ (forall m, aro_client_metadata a <> Ok m)
       /\ (forall k v, obj_get k (aro_to_obj a) = Some v -> exists s, v = JStr s))
    /\ (forall a, snd (validate url_parse ssi_header uri_ok w r) = Ok a -> ro_mode a = DirectPost \/ ro_mode a = DcApi).
Proof. exact c69_direct_text_pf. Qed.
Print Assumptions c69_direct_text.

Example c69_direct_text_witness :
  exists r o, from_query_params simple_parse
      "client_id=c&nonce=n&response_type=vp_token&response_uri=https%3A%2F%2Fv.example%2F&response_mode=direct_post&dcql_query=%7B%22credentials%22%3A%5B%5D%7D" = Ok r
  /\ ar_indirection r = Direct o
  /\ obj_get "dcql_query" o = Some (JStr "{""credentials"":[]}")
  /\ is_ok (snd (validate simple_parse any_header (fun _ => true) (lax_wallet [] (serve 404 "")) r)) = true.
Proof. exact c69_direct_text_ex. Qed.
