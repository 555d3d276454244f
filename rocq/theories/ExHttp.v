(** The example wallet behind its web server:
    /repo/examples/wallet-conformance-adapter/server/{routes,handlers/authorization,handlers/health,handlers/metadata}.rs,
    crypto/keys.rs.  The web framework is axum 0.7 with tower-http 0.6 (Cargo.toml:46,65-66, external). *)
From Verif Require Import Base Utf8 Json JsonText Base64 Serde Url UrlEncoded Object Formats Params Dcql
  Effects Jwt Request Response Jwe ExMatcher ExWallet ExMetadata.

(** An HTTP request as the server sees it.  Simplification: the body arrives complete, with its length declared. *)
Record hrequest := mk_hrequest {
  hq_method : string;
  hq_path : string;
  hq_query : option string;
  hq_content_type : option string;
  hq_body : string
}.
(** Its answer.  [None] is an empty or plain text body. *)
Record hreply := mk_hreply { hr_status : N; hr_json : option json }.

(** serde_urlencoded (external) into [AuthorizationParams], authorization.rs:24-44: every field is optional, other names
    are ignored, and a field that occurs twice is an error. *)
Definition once (k : string) (l : list (string * string)) : res (option string) :=
  match filter (fun kv => String.eqb (fst kv) k) l with
  | [] => Ok None
  | [(_, v)] => Ok (Some v)
  | _ => Err "duplicate field"
  end.
Definition read_params (text : string) : res params :=
  let l := form_parse text in
  let? client_id := once "client_id" l in
  let? request := once "request" l in
  let? request_uri := once "request_uri" l in
  let? response_type := once "response_type" l in
  let? nonce := once "nonce" l in
  let? state := once "state" l in
  let? response_mode := once "response_mode" l in
  let? response_uri := once "response_uri" l in
  let? dcql := once "dcql_query" l in
  Ok (mk_params client_id request request_uri response_type nonce state response_mode response_uri dcql).

(** axum's test of the content type for a form: the header is visible ASCII and starts with the form type. *)
Definition visible (c : ascii) : bool := in_range 32 126 c || (byte c =? 9)%N.
Definition is_form (content_type : option string) : bool :=
  match content_type with
  | Some t => forallb visible (list_ascii_of_string t) && starts_with "application/x-www-form-urlencoded" t
  | None => false
  end.

(** [ErrorResponse] and [error_response], authorization.rs:47-53,563-576. *)
Definition error_reply (status : N) (code description : string) (state : option string) : hreply :=
  mk_hreply status
    (Some (JObj ([("error", JStr code); ("error_description", JStr description)]
                 ++ match state with Some s => [("state", JStr s)] | None => [] end))).
(** [SuccessResponse], authorization.rs:56-60. *)
Definition success_reply (redirect : option string) : hreply :=
  mk_hreply 200 (Some (JObj (match redirect with Some r => [("redirect_uri", JStr r)] | None => [] end))).

Section Server.
Variable url_parse : string -> option url.
Variable ssi_header : obj -> option bool.
Variable uri_ok : string -> bool.
Variable jwk_ok : obj -> bool.
Variable jwe_encrypt : obj -> obj -> obj -> res string.
Variable lower : string -> string.
Variable sign : string -> string.
Variable now : Z.
Variable http : http_client.
Variable endpoint : url.
Variable store : list credential.
Variable auto_consent : bool.
(** The text of an error, and of a status. *)
Variable describe : string -> string.
Variable reason : N -> string.

(** The submission, authorization.rs:350-413,488-548. Simplifications as for [deliver] in ExWallet.v. *)
Definition submit (u : url) (body : string) (state : option string) : list wevent * hreply :=
  let r := plain_post u body in
  match http r with
  | Ok rs =>
      if is_success (rs_status rs) then
        match match json_of_text (utf8_lossy (rs_body rs)) with
              | Some (JObj m) => match obj_get "redirect_uri" m with Some v => as_str v | None => None end
              | _ => None
              end with
        | Some x => (EHttp r :: match url_parse x with
                                | Some x' => [EHttp (mk_req "GET" (url_str x') [] EmptyString)]
                                | None => []
                                end, success_reply (Some x))
        | None => ([EHttp r], success_reply None)
        end
      else ([EHttp r],
            error_reply 502 "verifier_error"
              ("Verifier returned " +:+ reason (rs_status rs) +:+ ": " +:+ utf8_lossy (rs_body rs)) state)
  | Err e => ([EHttp r], error_reply 502 "submission_failed" (describe e) state)
  end.
(** [submit_direct_post], authorization.rs:322-413: the form encoding of a response cannot fail. *)
Definition submit_direct_post (a : aro) (vp : vp_token) (state : option string) : list wevent * hreply :=
  submit (ro_return a) (unencoded_form (mk_unencoded vp state)) state.
(** [submit_direct_post_jwt], authorization.rs:416-549: a key is JSON (authorization.rs:446-457 cannot fail). *)
Definition submit_direct_post_jwt (a : aro) (vp : vp_token) (state : option string) : list wevent * hreply :=
  match verifier_key jwk_ok a with
  | Err e => ([], error_reply 400 "invalid_client_metadata" ("Missing encryption key: " +:+ describe e) state)
  | Ok info =>
      let b := jb_set_alg (ki_alg info) (jb_set_payload (JObj (response_payload vp state)) jb_new) in
      let b := match ki_kid info with Some k => jb_set_kid k b | None => b end in
      match (let? b := jb_set_key_json jwk_ok (JObj (ki_jwk info)) b in jwe_build jwe_encrypt b) with
      | Err e => ([], error_reply 500 "encryption_error" (describe e) state)
      | Ok jwe => submit (ro_return a) (form_serialize [("response", jwe)]) state
      end
  end.

(** [process_authorization_request], authorization.rs:89-280. Building the URL and the token cannot fail, and the
    creation of the HTTP client (authorization.rs:121-132) is taken to succeed. *)
Definition process (p : params) : list wevent * hreply :=
  match from_url url_parse (build_request_url endpoint p) endpoint with
  | Err e => ([], error_reply 400 "invalid_request" ("Failed to parse request: " +:+ describe e) (pa_state p))
  | Ok ar =>
      let m := resolve_request url_parse ssi_header uri_ok http ar in
      match snd m with
      | Err e => (fst m, error_reply 400 "invalid_request" ("Failed to resolve request: " +:+ describe e) (pa_state p))
      | Ok (a, _) =>
          match aro_dcql a with
          | Some (Err e) => (fst m, error_reply 400 "invalid_request" ("Invalid dcql_query: " +:+ describe e) (pa_state p))
          | None => (fst m, error_reply 400 "invalid_request" "Missing required parameter: dcql_query" (pa_state p))
          | Some (Ok _) =>
              match process_request lower store auto_consent a with
              | Err e => (fst m, error_reply 400 "access_denied" (describe e) (pa_state p))
              | Ok sel =>
                  if redirect_uri_bound a then
                    let audience := match ro_client_id a with Some c => c | None => "unknown-verifier" end in
                    let vp := build_vp_token sign now sel (ro_nonce a) audience in
                    let state := match aro_state a with Some (Ok s) => Some s | _ => pa_state p end in
                    match ro_mode a with
                    | DirectPost =>
                        let s := submit_direct_post a vp state in (fst m ++ fst s, snd s)
                    | DirectPostJwt =>
                        let s := submit_direct_post_jwt a vp state in (fst m ++ fst s, snd s)
                    | _ => (fst m, error_reply 400 "unsupported_response_mode"
                                     (describe "unsupported_response_mode") (pa_state p))
                    end
                  else (fst m, error_reply 400 "invalid_request"
                                 "response_uri must match client_id when using redirect_uri client_id_scheme" (pa_state p))
              end
          end
      end
  end.

(** [authorization_get] with the [Query] extractor, authorization.rs:66-73. *)
Definition authorization_get (q : hrequest) : list wevent * hreply :=
  match read_params (match hq_query q with Some t => t | None => EmptyString end) with
  | Ok p => process p
  | Err _ => ([], mk_hreply 400 None)
  end.
(** [authorization_post] with the [Form] extractor, authorization.rs:79-86. *)
Definition authorization_post (q : hrequest) : list wevent * hreply :=
  if is_form (hq_content_type q) then
    match read_params (hq_body q) with
    | Ok p => process p
    | Err _ => ([], mk_hreply 422 None)
    end
  else ([], mk_hreply 415 None).

(** The rest of the configuration, and the holder's public point. *)
Variable public_url : url.
Variable point : string * string.

Definition page (j : json) : list wevent * hreply := ([], mk_hreply 200 (Some j)).
(** [health], health.rs:9-15, and the version of Cargo.toml:3. *)
Definition health : json := JObj [("engine", JStr "headless"); ("status", JStr "ok"); ("version", JStr "0.1.0")].
(** [debug_config], health.rs:21-27. *)
Definition debug_config : json :=
  JObj [("authorization_endpoint", JStr (url_str endpoint)); ("credentials_count", JInt (Z.of_nat (length store)));
        ("public_url", JStr (url_str public_url))].
(** [debug_credentials], health.rs:32-37. *)
Definition debug_credentials : json :=
  JObj [("count", JInt (Z.of_nat (length store))); ("formats", jstrs ["dc+sd-jwt"; "vc+sd-jwt"])].
(** [public_jwk], keys.rs:27-43; [public_keys], headless.rs:138-140; [jwks], metadata.rs:65-71. *)
Definition public_jwk : json :=
  JObj [("alg", JStr "ES256"); ("crv", JStr "P-256"); ("kid", JStr "holder-key"); ("kty", JStr "EC"); ("use", JStr "sig");
        ("x", JStr (b64url_encode (fst point))); ("y", JStr (b64url_encode (snd point)))].
Definition jwks : json := JObj [("keys", JArr [public_jwk])].

(** The pages of [create_router], routes.rs:23-38, other than the authorization endpoint. *)
Definition pages : list (string * json) :=
  [("/.well-known/openid-configuration", served_metadata url_parse endpoint);
   ("/.well-known/jwks.json", jwks);
   ("/health", health);
   ("/debug/config", debug_config);
   ("/debug/credentials", debug_credentials);
   ("/", health)].

(** axum's method routing: a GET handler also answers HEAD, without a body. *)
Definition headless (m : string) (r : list wevent * hreply) : list wevent * hreply :=
  if String.eqb m "HEAD" then (fst r, mk_hreply (hr_status (snd r)) None) else r.
Definition is_get (m : string) : bool := String.eqb m "GET" || String.eqb m "HEAD".
Definition route (q : hrequest) : list wevent * hreply :=
  let m := hq_method q in
  if String.eqb (hq_path q) "/authorize" then
    if is_get m then headless m (authorization_get q)
    else if String.eqb m "POST" then authorization_post q
    else ([], mk_hreply 405 None)
  else match find (fun x => String.eqb (fst x) (hq_path q)) pages with
       | Some (_, j) => if is_get m then headless m (page j) else ([], mk_hreply 405 None)
       | None => ([], mk_hreply 404 None)
       end.

(** [create_router], routes.rs:16-49. The layers, from the outside: the limit of one MiB (routes.rs:46), the timeout of
    30 s (routes.rs:42-45), CORS, which answers every OPTIONS request itself (routes.rs:18-21,40), and the routes.
    [cut]: the timeout fires when that many of the effects have happened. *)
Definition body_limit : N := 1024 * 1024.
Definition serve_http (cut : option nat) (q : hrequest) : list wevent * hreply :=
  if (body_limit <? N.of_nat (String.length (hq_body q)))%N then ([], mk_hreply 413 None)
  else
    let r := if String.eqb (hq_method q) "OPTIONS" then ([], mk_hreply 200 None) else route q in
    match cut with
    | Some n => (firstn n (fst r), mk_hreply 408 None)
    | None => r
    end.
End Server.
