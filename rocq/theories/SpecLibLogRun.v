(** Specification vocabulary for what the library writes to the log over a whole request. *)
From Verif Require Import Base Json Object Utf8 Url Effects Request Verify LibLog SpecRequest SpecVerify SpecJwe.

(** What the log says about the type of a request object; [None]: the request had none. *)
Inductive typ_noted : option string -> list entry -> Prop :=
| noted_plain : typ_noted None []
| noted_right jwt h64 p64 s64 h : compact jwt h64 p64 s64 -> header_text h64 h -> text_at "typ" h "oauth-authz-req+jwt" -> typ_noted (Some jwt) []
| noted_wrong jwt h64 p64 s64 h t : compact jwt h64 p64 s64 -> header_text h64 h -> text_at "typ" h t -> t <> "oauth-authz-req+jwt" ->
    typ_noted (Some jwt) [(Warn, "Request Object has incorrect 'typ' header '" +:+ t
      +:+ "' (expected 'oauth-authz-req+jwt'), but allowing for redirect_uri prefix per Section 5.9.3")]
| noted_missing jwt h64 p64 s64 h : compact jwt h64 p64 s64 -> header_text h64 h -> maybe_text "typ" h None ->
    typ_noted (Some jwt) [(Warn, "Request Object missing 'typ' header (expected 'oauth-authz-req+jwt'), but allowing for redirect_uri prefix per Section 5.9.3")].
(** What it says about the client metadata. *)
Definition metadata_noted (a : aro) (es : list entry) : Prop :=
  obj_get "client_metadata" (aro_to_obj a) <> None /\ es = []
  \/ obj_get "client_metadata" (aro_to_obj a) = None /\ es = [(Warn, "the client metadata was not passed in the request")].
(** A request that says who it is from with a redirect_uri identifier. *)
Definition for_redirect (r : auth_request) : Prop := exists rest, ar_client_id r = Some ("redirect_uri:" +:+ rest).
(** The text that a wallet has for a request object. *)
Inductive obtained (uri_ok : string -> bool) (http : http_client) (r : auth_request) : string -> Prop :=
| from_value jwt : ar_indirection r = ByValue jwt -> obtained uri_ok http r jwt
| from_address u status jwt : ar_indirection r = ByReference u -> uri_ok (url_str u) = true ->
    http (get_request u) = Ok (mk_resp status jwt) -> (200 <= status < 300)%N -> utf8_valid jwt = true -> obtained uri_ok http r jwt.
