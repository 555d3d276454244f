(** What the library writes to the log while a request is resolved and validated (authorization_request/mod.rs:72-159 and
    verification/mod.rs:122-259), and while the example wallet answers one
    (/repo/examples/wallet-conformance-adapter/server/handlers/authorization.rs:134-260,423-440,551-560). *)
From Verif Require Import Base Utf8 Json Url Object Params Metadata Effects Jwt Request Verify Response Jwe LibLog ExMatcher ExWallet.

Section Run.
Variable url_parse : string -> option url.
Variable ssi_header : obj -> option bool.
Variable uri_ok : string -> bool.

(** [resolve_request], mod.rs:99-159: only [validate_request_object_typ] logs. *)
Definition resolve_log (http : http_client) (r : auth_request) : list entry :=
  let is_redirect := match ar_client_id r with Some c => starts_with "redirect_uri:" c | None => false end in
  match ar_indirection r with
  | ByValue jwt => typ_entries jwt is_redirect
  | ByReference u =>
      if uri_ok (url_str u) then
        match http (get_request u) with
        | Ok rs => if utf8_valid (rs_body rs) && is_success (rs_status rs) then typ_entries (rs_body rs) is_redirect else []
        | Err _ => []
        end
      else []
  | Direct _ => []
  end.
(** [validate_request_against_metadata], verification/mod.rs:166-187: the prefix is checked before the client metadata are
    resolved. *)
Definition metadata_log (wm : wallet_metadata) (a : aro) : list entry :=
  match match ro_scheme a with
        | None => Ok tt
        | Some prefix =>
            let? l := uo_get_or_default p_client_id_prefixes default_prefixes (wm_obj wm) in
            of_bool (mem_str prefix l) "unsupported prefix"
        end with
  | Ok _ => resolve_entries a
  | Err _ => []
  end.
(** [AuthorizationRequest::validate], mod.rs:72-90.  [hook_log]: what the wallet's hook logs, arbitrary ([san_entries] and
    [hash_entries] when it is the library's). *)
Definition validate_log (hook_log : hook -> aro -> option string -> list entry) (w : wallet) (r : auth_request) : list entry :=
  resolve_log (w_http w) r ++
  match snd (resolve_request url_parse ssi_header uri_ok (w_http w) r) with
  | Err _ => []
  | Ok (a, jwt) =>
      metadata_log (w_metadata w) a ++
      match validate_against_metadata (w_metadata w) a with
      | Err _ => []
      | Ok _ => match hook_for (ro_scheme a) with Some h => hook_log h a jwt | None => [] end
      end
  end.

(** The example wallet: [resolve_request] and, for an encrypted answer, [find_encryption_jwk] (authorization.rs:134,551-560). *)
Definition wallet_log (lower : string -> string) (http : http_client) (endpoint : url) (store : list credential) (auto_consent : bool)
    (p : params) : list entry :=
  match from_url url_parse (build_request_url endpoint p) endpoint with
  | Err _ => []
  | Ok ar =>
      resolve_log http ar ++
      match snd (resolve_request url_parse ssi_header uri_ok http ar) with
      | Err _ => []
      | Ok (a, _) =>
          match aro_dcql a, process_request lower store auto_consent a with
          | Some (Ok _), Ok _ =>
              if redirect_uri_bound a then
                match ro_mode a with
                | DirectPostJwt =>
                    match (let? cm := aro_client_metadata a in parsing_error (cm_jwks cm)) with
                    | Ok keys => find_entries keys
                    | Err _ => []
                    end
                | _ => []
                end
              else []
          | _, _ => []
          end
      end
  end.
End Run.
