(** The example wallet: /repo/examples/wallet-conformance-adapter/{engine/headless,crypto/keys,
    server/handlers/authorization}.rs. *)
From Verif Require Import Base Utf8 Json JsonText Base64 Sha256 Serde Url UrlEncoded Object Formats Params Dcql
  Effects Jwt Request Response Jwe ExMatcher.

(* ------------------------------------------------------------ presentations *)
Section Engine.
(** The holder's ES256 signature and the clock. *)
Variable sign : string -> string.
Variable now : Z.

(** [compute_sd_hash], keys.rs:73-77. *)
Definition sd_hash (s : string) : string := b64url_encode (sha256 s).
(** [create_key_binding_jwt], keys.rs:45-71. *)
Definition key_binding_jwt (sd nonce audience : string) : string :=
  let h := b64url_encode (jprint (JObj [("alg", JStr "ES256"); ("typ", JStr "kb+jwt")])) in
  let p := b64url_encode (jprint (JObj [("aud", JStr audience); ("iat", JInt now); ("nonce", JStr nonce);
                                        ("sd_hash", JStr (sd_hash sd))])) in
  h +:+ "." +:+ p +:+ "." +:+ b64url_encode (sign (h +:+ "." +:+ p)).

(** One credential of headless.rs:110-126: the part after the last '~' is replaced. *)
Definition present (nonce audience raw : string) : vp_item :=
  let parts := split_all "~" raw in
  if Nat.leb 2 (length parts) then
    let sd := join "~" (removelast parts) +:+ "~" in
    VpString (sd +:+ key_binding_jwt sd nonce audience)
  else VpString raw.
(** [build_vp_token], headless.rs:92-136. *)
Definition build_vp_token (s : selection) (nonce audience : string) : vp_token :=
  fold_left (fun t e => vp_insert (fst e) (map (present nonce audience) (snd e)) t) s vp_new.
End Engine.

(* ------------------------------------------------------------ the endpoint *)
(** [AuthorizationParams], authorization.rs:24-44. *)
Record params := mk_params {
  pa_client_id : option string;
  pa_request : option string;
  pa_request_uri : option string;
  pa_response_type : option string;
  pa_nonce : option string;
  pa_state : option string;
  pa_response_mode : option string;
  pa_response_uri : option string;
  pa_dcql_query : option string
}.
Definition param_pairs (p : params) : list (string * string) :=
  flat_map (fun kv : string * option string => match snd kv with Some v => [(fst kv, v)] | None => [] end)
    [("client_id", pa_client_id p); ("request", pa_request p); ("request_uri", pa_request_uri p);
     ("response_type", pa_response_type p); ("nonce", pa_nonce p); ("state", pa_state p);
     ("response_mode", pa_response_mode p); ("response_uri", pa_response_uri p);
     ("dcql_query", pa_dcql_query p)].
(** [build_request_url], authorization.rs:283-319. [append_pair] appends to the endpoint's own query. *)
Definition build_request_url (endpoint : url) (p : params) : url :=
  let new := form_serialize (param_pairs p) in
  set_query endpoint
    (match u_query endpoint with
     | Some q => match q, param_pairs p with
                 | EmptyString, _ => new
                 | _, [] => q
                 | _, _ => q +:+ "&" +:+ new
                 end
     | None => new
     end).

Section Handler.
Variable url_parse : string -> option url.
Variable ssi_header : obj -> option bool.
Variable uri_ok : string -> bool.
Variable jwk_ok : obj -> bool.
Variable jwe_encrypt : obj -> obj -> obj -> res string.
Variable lower : string -> string.
Variable sign : string -> string.
Variable now : Z.
Variable http : http_client.
(** The configuration: endpoint, credentials, and whether consent is automatic. *)
Variable endpoint : url.
Variable store : list credential.
Variable auto_consent : bool.

(** The POST of authorization.rs:350-358,488-495. *)
Definition plain_post (u : url) (body : string) : http_req :=
  mk_req "POST" (url_str u) [("Content-Type", "application/x-www-form-urlencoded")] body.
(** The answer to it, authorization.rs:359-412,496-548: the redirect is followed, whatever happens then.
    Simplifications: reqwest's [text()] is UTF-8 with repair (no other charset), and an absolute URL is
    always sent; a body that cannot be read counts as an empty one in [rs_body]. HTTP-level redirects (3xx), which these reqwest clients follow on their own (Reqwest.v), are inside [http]:
    only the request the example makes is an event. *)
Definition deliver (u : url) (body : string) : M wevent (option string) :=
  let! rs := send http (plain_post u body) in
  let! _ := lift (of_bool (is_success (rs_status rs)) "verifier_error") in
  match match json_of_text (utf8_lossy (rs_body rs)) with
        | Some (JObj m) => match obj_get "redirect_uri" m with Some v => as_str v | None => None end
        | _ => None
        end with
  | Some r => match url_parse r with
              | Some r' => let! _ := emit (EHttp (mk_req "GET" (url_str r') [] EmptyString)) in ret (Some r)
              | None => ret (Some r)
              end
  | None => ret None
  end.

(** [get_verifier_encryption_key], authorization.rs:551-560. *)
Definition verifier_key (a : aro) : res jwk_info :=
  let? cm := aro_client_metadata a in
  let? keys := parsing_error (cm_jwks cm) in
  find_encryption_jwk jwk_ok keys.
(** The JWE of [submit_direct_post_jwt], authorization.rs:423-481. *)
Definition encrypted_answer (a : aro) (vp : vp_token) (state : option string) : res string :=
  let? info := verifier_key a in
  let b := jb_set_alg (ki_alg info) (jb_set_payload (JObj (response_payload vp state)) jb_new) in
  let b := match ki_kid info with Some k => jb_set_kid k b | None => b end in
  let? b := jb_set_key_json jwk_ok (JObj (ki_jwk info)) b in
  jwe_build jwe_encrypt b.

(** The engine's [process_request], headless.rs:52-90. *)
Definition process_request (a : aro) : res selection :=
  let? _ := of_bool auto_consent "user declined" in
  let? q := match aro_dcql a with
            | None => Err "dcql_query is required"
            | Some r => context r "Failed to parse DCQL"
            end in
  match_query lower store q.

(** The check of authorization.rs:188-214. *)
Definition redirect_uri_bound (a : aro) : bool :=
  match ro_client_id a with
  | Some c => match strip_prefix "redirect_uri:" c with
              | Some expected => String.eqb (url_str (ro_return a)) expected
              | None => true
              end
  | None => true
  end.

(** [process_authorization_request], authorization.rs:89-280: the redirect answered, or an error. *)
Definition authorize (p : params) : M wevent (option string) :=
  let! ar := lift (from_url url_parse (build_request_url endpoint p) endpoint) in
  let! (a, _) := resolve_request url_parse ssi_header uri_ok http ar in
  let! _ := lift (match aro_dcql a with
                  | Some r => context r "Invalid dcql_query"
                  | None => Err "Missing required parameter: dcql_query"
                  end) in
  let! sel := lift (process_request a) in
  let! _ := lift (of_bool (redirect_uri_bound a) "response_uri must match client_id") in
  let audience := match ro_client_id a with Some c => c | None => "unknown-verifier" end in
  let vp := build_vp_token sign now sel (ro_nonce a) audience in
  let state := match aro_state a with Some (Ok s) => Some s | _ => pa_state p end in
  match ro_mode a with
  | DirectPost => deliver (ro_return a) (unencoded_form (mk_unencoded vp state))
  | DirectPostJwt =>
      let! jwe := lift (encrypted_answer a vp state) in
      deliver (ro_return a) (form_serialize [("response", jwe)])
  | _ => lift (Err "unsupported_response_mode")
  end.
End Handler.
