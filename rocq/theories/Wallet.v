(** /repo/src/wallet.rs. *)
From Verif Require Import Base Utf8 Json JsonText Url Object Params Metadata Effects Request Verify Response.

(** [Wallet::validate_request], wallet.rs:23-29. *)
Definition validate_request (url_parse : string -> option url) (ssi_header : obj -> option bool)
    (uri_ok : string -> bool) (w : wallet) (u : url) : M wevent aro :=
  let! ar := lift (from_url url_parse u (wm_endpoint (w_metadata w))) in
  validate url_parse ssi_header uri_ok w ar.

(** The request built in wallet.rs:36-72. *)
Definition post_request (u : url) (body : string) : http_req :=
  mk_req "POST" (url_str u)
    (base_headers ++ [("content-type", "application/x-www-form-urlencoded")]) body.

(** [Wallet::submit_response], wallet.rs:31-107. *)
Definition submit_response (url_parse : string -> option url) (uri_ok : string -> bool)
    (http : http_client) (a : aro) (resp : auth_response) : M wevent (option url) :=
  let post body :=
    let! _ := lift (of_bool (uri_ok (url_str (ro_return a))) "failed to construct request") in
    let! rs := send http (post_request (ro_return a) body) in
    let! _ := lift (of_bool (utf8_valid (rs_body rs)) "not UTF-8") in
    let! _ := lift (of_bool (is_success (rs_status rs)) "unsuccessful") in
    if all_white (rs_body rs) then ret None
    else
      let! j := lift (ok_or (json_of_text (rs_body rs)) "verifier response is not valid JSON") in
      match match j with
            | JObj m => match obj_get "redirect_uri" m with Some v => as_str v | None => None end
            | _ => None
            end with
      | None => ret None
      | Some s => let! u := lift (ok_or (url_parse s) "invalid redirect_uri") in ret (Some u)
      end in
  match ro_mode a with
  | DirectPost =>
      match resp with
      | Unencoded u => post (unencoded_form u)
      | Jwt _ => lift (Err "unexpected AuthorizationResponse format")
      end
  | DirectPostJwt =>
      match resp with
      | Jwt j => post (jwt_form j)
      | Unencoded _ => lift (Err "unexpected AuthorizationResponse format")
      end
  | DcApi | DcApiJwt => ret None
  | UnsupportedMode _ => lift (Err "unsupported response_mode")
  end.
