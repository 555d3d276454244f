(** /repo/src/core/metadata/mod.rs: wallet metadata. *)
From Verif Require Import Base Json Serde Url Object Formats Params.

(** [WalletMetadata(UntypedObject, AuthorizationEndpoint, VpFormatsSupported)],
    metadata/mod.rs:21-23. *)
Record wallet_metadata := mk_wm { wm_obj : obj; wm_endpoint : url; wm_formats : format_map }.

(** [WalletMetadata::new], metadata/mod.rs:26-36. *)
Definition wm_new (url_parse : string -> option url) (ep : url) (fm : format_map) (other : option obj)
  : wallet_metadata :=
  let inner := match other with Some o => o | None => [] end in
  let inner := uo_put (p_authorization_endpoint url_parse) ep inner in
  let inner := uo_put p_vp_formats_supported fm inner in
  mk_wm inner ep fm.

(** [From<WalletMetadata> for UntypedObject], metadata/mod.rs:142-149. *)
Definition wm_to_obj (url_parse : string -> option url) (w : wallet_metadata) : obj :=
  uo_put p_vp_formats_supported (wm_formats w)
    (uo_put (p_authorization_endpoint url_parse) (wm_endpoint w) (wm_obj w)).

(** [TryFrom<UntypedObject> for WalletMetadata], metadata/mod.rs:151-159. *)
Definition wm_of_obj (url_parse : string -> option url) (o : obj) : res wallet_metadata :=
  let? ep := parsing_error (uo_get (p_authorization_endpoint url_parse) o) in
  let? fm := parsing_error (uo_get p_vp_formats_supported o) in
  Ok (mk_wm o ep fm).

(** [Serialize]/[Deserialize] through [UntypedObject], metadata/mod.rs:21-22. *)
Definition wm_to_json url_parse (w : wallet_metadata) : json := JObj (wm_to_obj url_parse w).
Definition wm_of_json url_parse (j : json) : res wallet_metadata :=
  let? o := de_obj j in wm_of_obj url_parse o.

(** [add_request_object_signing_alg_values_supported], metadata/mod.rs:54-69. The algorithm is its
    name. *)
Definition add_signing_alg (alg : string) (w : wallet_metadata) : res wallet_metadata :=
  let? l := uo_get_or_default p_signing_algs [] (wm_obj w) in
  Ok (mk_wm (uo_put p_signing_algs (l ++ [alg]) (wm_obj w)) (wm_endpoint w) (wm_formats w)).

(** [add_client_id_prefixes_supported], metadata/mod.rs:76-89. *)
Definition add_client_id_prefixes (ps : list string) (w : wallet_metadata) : res wallet_metadata :=
  let? l := uo_get_or_default p_client_id_prefixes default_prefixes (wm_obj w) in
  Ok (mk_wm (uo_put p_client_id_prefixes (l ++ ps) (wm_obj w)) (wm_endpoint w) (wm_formats w)).

(** [vp_formats_supported_mut], metadata/mod.rs:48-50: replaces the formats field only. *)
Definition set_formats (fm : format_map) (w : wallet_metadata) : wallet_metadata :=
  mk_wm (wm_obj w) (wm_endpoint w) fm.

(** [openid4vp_scheme_static], metadata/mod.rs:111-139. *)
Definition scheme_static (url_parse : string -> option url) : res wallet_metadata :=
  let? ep := match url_parse "openid4vp:" with Some u => Ok u | None => Err "panic" end in
  let o := uo_put (p_authorization_endpoint url_parse) ep [] in
  let o := uo_put p_response_types_supported [RtVpToken] o in
  let o := uo_put p_vp_formats_supported [(JwtVcJson, AlgValues ["ES256"])] o in
  let o := uo_put p_signing_algs ["ES256"] o in
  match wm_of_obj url_parse o with Ok w => Ok w | Err _ => Err "panic" end.
