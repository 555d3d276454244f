(** /repo/src/core/authorization_request/verification/mod.rs and
    [AuthorizationRequest::validate] (authorization_request/mod.rs:72-90). *)
From Verif Require Import Base Json Url Object Params Metadata Effects Request.

(** [trait Wallet], wallet.rs:16-29: metadata, HTTP client and verification hooks.  The hooks are
    supplied by the user of the library: arbitrary functions. *)
Record wallet := mk_wallet {
  w_metadata : wallet_metadata;
  w_http : http_client;
  w_hook : hook -> aro -> option string -> res unit
}.

(** The default hooks, verification/mod.rs:36-119: every one of them fails. *)
Definition default_hook (h : hook) (a : aro) (jwt : option string) : res unit :=
  Err "client verification not implemented".

(** Keys marked [use = "enc"] with a string [alg], verification/mod.rs:203-213. *)
Definition key_str (k : string) (key : obj) : option string :=
  match obj_get k key with Some v => as_str v | None => None end.
Definition marked_enc (key : obj) : bool :=
  match key_str "use" key with Some u => String.eqb u "enc" | None => false end.
Definition encryption_algs (keys : list obj) : list string :=
  flat_map (fun k => match key_str "alg" k with Some a => [a] | None => [] end)
           (filter marked_enc keys).

(** The optional wallet list must contain one of the values, verification/mod.rs:222-234,243-255. *)
Definition list_allows (supported : option (res (list string))) (values : list string) : res unit :=
  match supported with
  | None => Ok tt
  | Some r => let? l := r in of_bool (existsb (fun v => mem_str v l) values) "not supported by wallet"
  end.

(** [validate_request_against_metadata], verification/mod.rs:166-259. *)
Definition validate_against_metadata (wm : wallet_metadata) (a : aro) : res unit :=
  let? _ := match ro_scheme a with
            | None => Ok tt
            | Some prefix =>
                let? l := uo_get_or_default p_client_id_prefixes default_prefixes (wm_obj wm) in
                of_bool (mem_str prefix l) "unsupported prefix"
            end in
  let? cm := resolve_client_metadata a in
  let? mode := parsing_error (aro_get p_response_mode a) in
  let? jarm := is_jarm mode in
  if jarm then
    let? keys := match uo_get p_jwks cm with
                 | None => Err "'jwks' is required"
                 | Some r => context r "failed to parse 'jwks'"
                 end in
    let algs := encryption_algs keys in
    let? _ := of_bool (match algs with [] => false | _ => true end) "no encryption key" in
    let? _ := list_allows (uo_get p_encryption_algs (wm_obj wm)) algs in
    let? encs := uo_get_or_default p_response_encs default_encs cm in
    list_allows (uo_get p_encryption_encs (wm_obj wm)) encs
  else Ok tt.

(** The hook chosen by verification/mod.rs:133-161; [None]: rejected without a hook. *)
Definition hook_for (scheme : option string) : option hook :=
  match scheme with
  | None => Some HPreregistered
  | Some p =>
      if String.eqb p DECENTRALIZED_IDENTIFIER then Some HDid
      else if String.eqb p OPENID_FEDERATION then Some HFederation
      else if String.eqb p REDIRECT_URI then Some HRedirectUri
      else if String.eqb p VERIFIER_ATTESTATION then Some HAttestation
      else if String.eqb p X509_SAN_DNS then Some HX509San
      else if String.eqb p X509_HASH then Some HX509Hash
      else if String.eqb p ORIGIN then None
      else Some (HOther p)
  end.

(** [verify_request], verification/mod.rs:122-164. *)
Definition verify_request (w : wallet) (a : aro) (jwt : option string) : M wevent unit :=
  let! _ := lift (validate_against_metadata (w_metadata w) a) in
  match hook_for (ro_scheme a) with
  | None => lift (Err "'origin' is reserved")
  | Some h => let! _ := emit (EHook h a jwt) in lift (w_hook w h a jwt)
  end.

(** [AuthorizationRequest::validate], authorization_request/mod.rs:72-90; also
    [Wallet::validate_request], wallet.rs:23-29. *)
Definition validate (url_parse : string -> option url) (ssi_header : obj -> option bool)
    (uri_ok : string -> bool) (w : wallet) (r : auth_request) : M wevent aro :=
  let! (a, jwt) := resolve_request url_parse ssi_header uri_ok (w_http w) r in
  let! _ := verify_request w a jwt in
  let! inner := lift (match aro_get p_client_id a with
                      | None => Ok None
                      | Some x => rmap Some (context x "'client_id' could not be parsed")
                      end) in
  match ar_client_id r, inner with
  | Some x, Some y => if String.eqb x y then ret a else lift (Err "different client ids")
  | _, _ => ret a
  end.
