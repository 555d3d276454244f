(** /repo/src/core/authorization_request/mod.rs. *)
From Verif Require Import Base Utf8 Json JsonText Serde Url UrlEncoded Object Params Effects Jwt Dcql
  Formats.

(** [AuthorizationRequestObject], mod.rs:32-42. *)
Record aro := mk_aro {
  ro_inner : obj;
  ro_client_id : option string;
  ro_scheme : option string;
  ro_mode : response_mode;
  ro_type : response_type;
  ro_return : url;
  ro_nonce : string
}.

Section WithUrl.
Variable url_parse : string -> option url.

(** [TryFrom<UntypedObject>], mod.rs:315-375. *)
Definition aro_of_obj (o : obj) : res aro :=
  let? cid := match uo_get p_client_id o with
              | None => Ok None
              | Some r => rmap Some (context r "'client_id' could not be parsed")
              end in
  let scheme := match cid with Some c => resolve_prefix c | None => None end in
  let redirect_uri := uo_get (p_redirect_uri url_parse) o in
  let response_uri := uo_get (p_response_uri url_parse) o in
  let? mode := context (uo_get_or_default p_response_mode default_mode o)
                       "'response_mode' could not be parsed" in
  let? ret :=
    match redirect_uri, response_uri, mode with
    | _, _, UnsupportedMode _ => Err "unsupported response_mode"
    | Some _, Some _, _ => Err "mutually exclusive"
    | _, None, DirectPost | _, None, DirectPostJwt => Err "'response_uri' is required"
    | _, Some u, DirectPost | _, Some u, DirectPostJwt =>
        context u "'response_uri' could not be parsed"
    | _, Some _, DcApi | _, Some _, DcApiJwt => Err "'response_uri' cannot be present"
    | Some _, _, DcApi | Some _, _, DcApiJwt => Err "'redirect_uri' cannot be present"
    | None, None, DcApi | None, None, DcApiJwt =>
        ok_or (url_parse "https://example.com") "invalid-url"
    end in
  let? rt := parsing_error (uo_get p_response_type o) in
  let? nonce := parsing_error (uo_get p_nonce o) in
  Ok (mk_aro o cid scheme mode rt ret nonce).

(** [From<AuthorizationRequestObject> for UntypedObject], mod.rs:309-313, and [Serialize] /
    [Deserialize] through it, mod.rs:33. *)
Definition aro_to_obj (a : aro) : obj := ro_inner a.
Definition aro_to_json (a : aro) : json := JObj (aro_to_obj a).
Definition aro_of_json (j : json) : res aro := let? o := de_obj j in aro_of_obj o.

(** [insert] through [DerefMut], mod.rs:385-389: only the inner object changes. *)
Definition aro_put {T} (P : tparam T) (t : T) (a : aro) : aro :=
  mk_aro (uo_put P t (ro_inner a)) (ro_client_id a) (ro_scheme a) (ro_mode a) (ro_type a)
         (ro_return a) (ro_nonce a).

(** [get] through [Deref], mod.rs:377-383. *)
Definition aro_get {T} (P : tparam T) (a : aro) : option (res T) := uo_get P (ro_inner a).

(** Accessors, mod.rs:257-306. *)
Definition aro_dcql (a : aro) : option (res dcql) := aro_get p_dcql a.
Definition is_id_token_requested (a : aro) : option bool :=
  match ro_type a with
  | RtVpToken => Some false | RtVpTokenIdToken => Some true | UnsupportedType _ => None
  end.
Definition aro_client_metadata (a : aro) : res obj :=
  match aro_get p_client_metadata a with
  | Some r => r | None => Err "missing `client_metadata` object"
  end.
Definition aro_vp_formats (a : aro) : res format_map :=
  let? cm := aro_client_metadata a in cm_vp_formats cm.
Definition aro_state (a : aro) : option (res string) := aro_get p_state a.

(** [ClientMetadata::resolve], parameters.rs:165-172. *)
Definition resolve_client_metadata (a : aro) : res obj :=
  match aro_get p_client_metadata a with Some r => r | None => Ok [] end.

(* ------------------------------------------------------------ authorization requests *)
(** [RequestIndirection], [AuthorizationRequest], mod.rs:44-60. *)
Inductive indirection :=
| ByValue (request : string)
| ByReference (request_uri : url)
| Direct (o : obj).
Record auth_request := mk_ar { ar_client_id : option string; ar_indirection : indirection }.

Definition values_of (k : string) (l : list (string * string)) : list string :=
  map snd (filter (fun kv => String.eqb (fst kv) k) l).
Definition others_of (k : string) (l : list (string * string)) : list (string * string) :=
  filter (fun kv => negb (String.eqb (fst kv) k)) l.

(** [from_query_params], mod.rs:237-240, i.e. the derived deserialisers on mod.rs:45-60 over the
    decoded pairs: a repeated [client_id] is an error; [RequestIndirection] is untagged, each variant
    tried in turn on the remaining pairs, a repeated named field failing that variant. *)
Definition from_pairs (l : list (string * string)) : res auth_request :=
  let rest := others_of "client_id" l in
  let? cid := match values_of "client_id" l with
              | [] => Ok None
              | [c] => Ok (Some c)
              | _ => Err "duplicate field `client_id`"
              end in
  let direct := Direct (obj_of_list (map (fun kv => (fst kv, JStr (snd kv))) rest)) in
  let by_ref := match values_of "request_uri" rest with
                | [u] => match url_parse u with Some u' => ByReference u' | None => direct end
                | _ => direct
                end in
  let ind := match values_of "request" rest with [r] => ByValue r | _ => by_ref end in
  Ok (mk_ar cid ind).
Definition from_query_params (q : string) : res auth_request := from_pairs (form_parse q).

(** [from_url], mod.rs:205-221. *)
Definition from_url (u endpoint : url) : res auth_request :=
  let? q := ok_or (u_query u) "missing query params" in
  let? _ := of_bool (String.eqb (url_authority u) (url_authority endpoint)) "unexpected authority" in
  let? _ := of_bool (String.eqb (u_path u) (u_path endpoint)) "unexpected path" in
  from_query_params q.

(** serde_urlencoded on one JSON value of a direct request. *)
Definition form_value (j : json) : res string :=
  match j with
  | JStr s => Ok s
  | JBool b => Ok (if b then "true" else "false")
  | JInt z => Ok (dec_Z z)
  | JFloat f => Ok f
  | _ => Err "unsupported value"
  end.
(** The pairs written by the derived serialisers on mod.rs:45-60. *)
Definition to_pairs (r : auth_request) : res (list (string * string)) :=
  let cid := match ar_client_id r with Some c => [("client_id", c)] | None => [] end in
  let? ps := match ar_indirection r with
             | ByValue j => Ok [("request", j)]
             | ByReference u => Ok [("request_uri", url_str u)]
             | Direct o => mapM (fun kv => let? v := form_value (snd kv) in Ok (fst kv, v)) o
             end in
  Ok (cid ++ ps).
(** [to_url], mod.rs:176-180. *)
Definition to_url (r : auth_request) (endpoint : url) : res url :=
  let? ps := to_pairs r in Ok (set_query endpoint (form_serialize ps)).

(* ------------------------------------------------------------ resolution *)
Definition REQUEST_OBJECT_TYP := "oauth-authz-req+jwt".

(** [validate_request_object_typ], mod.rs:400-448. *)
Definition validate_typ (jwt : string) (is_redirect_uri_prefix : bool) : res unit :=
  let? (h, _, _) := split_jws jwt in
  let? headers := jws_headers h in
  match match obj_get "typ" headers with Some v => as_str v | None => None end with
  | Some t =>
      if String.eqb t REQUEST_OBJECT_TYP then Ok tt
      else if is_redirect_uri_prefix then Ok tt else Err "wrong typ"
  | None => if is_redirect_uri_prefix then Ok tt else Err "missing typ"
  end.

(** Which verification hook of the wallet: [RequestVerifier], verification/mod.rs:33-120. *)
Inductive hook :=
| HDid | HFederation | HPreregistered | HRedirectUri | HAttestation | HX509San | HX509Hash
| HOther (prefix : string).

(** Observable actions of a wallet. *)
Inductive wevent :=
| EHttp (r : http_req)
| EHook (h : hook) (a : aro) (jwt : option string).

Variable ssi_header : obj -> option bool.
(** Whether [http::Uri] accepts the URL text. *)
Variable uri_ok : string -> bool.

(** The GET of mod.rs:120-124. *)
Definition get_request (u : url) : http_req := mk_req "GET" (url_str u) base_headers EmptyString.

(** Sending a request: the event is recorded, then the client's answer is returned. *)
Definition send (http : http_client) (r : http_req) : M wevent http_resp :=
  let! _ := emit (EHttp r) in lift (http r).

Definition decode_aro (jwt : string) : res aro :=
  let? o := decode_unverified ssi_header jwt in aro_of_obj o.

(** [resolve_request], mod.rs:99-159. *)
Definition resolve_request (http : http_client) (r : auth_request) : M wevent (aro * option string) :=
  let is_redirect := match ar_client_id r with
                     | Some c => starts_with "redirect_uri:" c
                     | None => false
                     end in
  match ar_indirection r with
  | ByValue jwt =>
      let! _ := lift (validate_typ jwt is_redirect) in
      let! a := lift (decode_aro jwt) in
      ret (a, Some jwt)
  | ByReference u =>
      let! _ := lift (of_bool (uri_ok (url_str u)) "failed to build request") in
      let! rs := send http (get_request u) in
      let! _ := lift (of_bool (utf8_valid (rs_body rs)) "not UTF-8") in
      let! _ := lift (of_bool (is_success (rs_status rs)) "unsuccessful") in
      let! _ := lift (validate_typ (rs_body rs) is_redirect) in
      let! a := lift (decode_aro (rs_body rs)) in
      ret (a, Some (rs_body rs))
  | Direct o =>
      let o' := match ar_client_id r with Some c => uo_put p_client_id c o | None => o end in
      let! a := lift (aro_of_obj o') in
      ret (a, None)
  end.
End WithUrl.
