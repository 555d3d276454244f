(** /repo/src/core/authorization_request/parameters.rs and
    /repo/src/core/metadata/parameters/{wallet,verifier}.rs: typed parameters. *)
From Verif Require Import Base Json Serde Url Object Formats.

(** [From<T> for Json] conversions cannot fail. *)
Definition infallible {T} (f : T -> json) (t : T) : res json := Ok (f t).

(** A parameter that is a bare string. *)
Definition p_string (k : string) : tparam string := mk_tparam k de_str (infallible JStr).
(** A parameter that is a list of strings. *)
Definition p_strings (k : string) : tparam (list string) :=
  mk_tparam k (de_list de_str) (infallible jstrs).

(** parameters.rs:40-56 *)
Definition p_client_id := p_string "client_id".
(** parameters.rs:275-291 *)
Definition p_nonce := p_string "nonce".
(** parameters.rs:293-312 *)
Definition p_audience := p_string "aud".
(** parameters.rs:497-516 *)
Definition p_state := p_string "state".
(** parameters.rs:519-537 *)
Definition p_expected_origins := p_strings "expected_origins".
(** parameters.rs:551-569 *)
Definition p_transaction_data := p_strings "transaction_data".
(** parameters.rs:584-602 *)
Definition p_verifier_info : tparam (list json) :=
  mk_tparam "verifier_info" (de_list de_json) (infallible JArr).

(** [ClientId::resolve_prefix], parameters.rs:28-38. *)
Definition resolve_prefix (client_id : string) : option string :=
  if has_char ":" client_id then
    match split_all ":" client_id with p :: _ => Some p | [] => None end
  else None.

(** [ClientIdScheme] constants, parameters.rs:80-111. *)
Definition DECENTRALIZED_IDENTIFIER := "decentralized_identifier".
Definition OPENID_FEDERATION := "openid_federation".
Definition PREREGISTERED := "pre-registered".
Definition REDIRECT_URI := "redirect_uri".
Definition VERIFIER_ATTESTATION := "verifier_attestation".
Definition X509_SAN_DNS := "x509_san_dns".
Definition X509_HASH := "x509_hash".
Definition ORIGIN := "origin".

(** [ClientMetadata], parameters.rs:139-158. *)
Definition p_client_metadata : tparam obj := mk_tparam "client_metadata" de_obj (infallible JObj).

(** [RedirectUri], [ResponseUri], parameters.rs:316-356. [Url]'s [Deserialize] parses a string. *)
Definition de_url (url_parse : string -> option url) (j : json) : res url :=
  let? s := de_str j in ok_or (url_parse s) "invalid-url".
Definition p_url (url_parse : string -> option url) (k : string) : tparam url :=
  mk_tparam k (de_url url_parse) (infallible (fun u => JStr (url_str u))).
Definition p_redirect_uri url_parse := p_url url_parse "redirect_uri".
Definition p_response_uri url_parse := p_url url_parse "response_uri".

(** [ResponseMode], parameters.rs:358-445. *)
Inductive response_mode :=
  DirectPost | DirectPostJwt | DcApi | DcApiJwt | UnsupportedMode (s : string).
Definition mode_of_string (s : string) : response_mode :=
  if String.eqb s "direct_post" then DirectPost
  else if String.eqb s "direct_post.jwt" then DirectPostJwt
  else if String.eqb s "dc_api" then DcApi
  else if String.eqb s "dc_api.jwt" then DcApiJwt
  else UnsupportedMode s.
Definition mode_to_string (m : response_mode) : string :=
  match m with
  | DirectPost => "direct_post"
  | DirectPostJwt => "direct_post.jwt"
  | DcApi => "dc_api"
  | DcApiJwt => "dc_api.jwt"
  | UnsupportedMode s => s
  end.
Definition default_mode : response_mode := DirectPost.
Definition p_response_mode : tparam response_mode :=
  mk_tparam "response_mode" (fun j => rmap mode_of_string (de_str j))
    (infallible (fun m => JStr (mode_to_string m))).
(** [is_jarm], parameters.rs:435-445. *)
Definition is_jarm (m : response_mode) : res bool :=
  match m with
  | DirectPost | DcApi => Ok false
  | DirectPostJwt | DcApiJwt => Ok true
  | UnsupportedMode _ => Err "unsupported response_mode"
  end.

(** [ResponseType], parameters.rs:447-495. *)
Inductive response_type := RtVpToken | RtVpTokenIdToken | UnsupportedType (s : string).
Definition rtype_of_string (s : string) : response_type :=
  if String.eqb s "vp_token" then RtVpToken
  else if String.eqb s "vp_token id_token" then RtVpTokenIdToken
  else UnsupportedType s.
Definition rtype_to_string (t : response_type) : string :=
  match t with
  | RtVpToken => "vp_token" | RtVpTokenIdToken => "vp_token id_token" | UnsupportedType s => s
  end.
Definition p_response_type : tparam response_type :=
  mk_tparam "response_type" (fun j => rmap rtype_of_string (de_str j))
    (infallible (fun t => JStr (rtype_to_string t))).

(** [RequestUriMethod], parameters.rs:611-642. *)
Inductive uri_method := MGet | MPost.
Definition p_request_uri_method : tparam uri_method :=
  mk_tparam "request_uri_method"
    (fun j => let? s := de_str j in
              if String.eqb s "get" then Ok MGet
              else if String.eqb s "post" then Ok MPost
              else Err "invalid request_uri_method")
    (infallible (fun m => JStr (match m with MGet => "get" | MPost => "post" end))).

(** [Nonce::random], parameters.rs:268-272: [Alphanumeric.sample_string] of rand 0.8.  Each
    character takes 32-bit random words until one has its six high bits below 62.  [None]: the
    given words are used up (the code would keep drawing). *)
Definition alnum_charset : string :=
  "ABCDEFGHIJKLMNOPQRSTUVWXYZabcdefghijklmnopqrstuvwxyz0123456789".
Definition alnum_char (w : N) : option ascii :=
  let v := N.shiftr w 26 in
  if (v <? 62)%N then String.get (N.to_nat v) alnum_charset else None.
Fixpoint sample_string (words : list N) (n : nat) : option string :=
  match n with
  | O => Some EmptyString
  | S n' =>
      (fix draw (ws : list N) : option string :=
         match ws with
         | [] => None
         | w :: ws' => match alnum_char w with
                       | Some c => option_map (String c) (sample_string ws' n')
                       | None => draw ws'
                       end
         end) words
  end.

(* ------------------------------------------------------------ wallet metadata *)
(** wallet.rs:11-30 *)
Definition p_issuer := p_string "issuer".
(** wallet.rs:32-51 *)
Definition p_authorization_endpoint url_parse := p_url url_parse "authorization_endpoint".
(** wallet.rs:53-80 *)
Definition p_response_types_supported : tparam (list response_type) :=
  mk_tparam "response_types_supported"
    (de_list (fun j => rmap rtype_of_string (de_str j)))
    (infallible (fun l => jstrs (map rtype_to_string l))).
(** wallet.rs:83-116 *)
Definition p_client_id_prefixes := p_strings "client_id_prefixes_supported".
Definition default_prefixes : list string := [PREREGISTERED].
(** wallet.rs:118-137 *)
Definition p_signing_algs := p_strings "request_object_signing_alg_values_supported".
(** wallet.rs:139-160 *)
Definition p_vp_formats_supported : tparam format_map :=
  mk_tparam "vp_formats_supported" format_map_of_json (infallible format_map_to_json).
(** wallet.rs:162-166 *)
Definition is_claim_format_supported (m : format_map) (d : designation) : bool :=
  match fm_get d m with Some _ => true | None => false end.
(** wallet.rs:168-208 *)
Definition p_encryption_algs := p_strings "authorization_encryption_alg_values_supported".
Definition p_encryption_encs := p_strings "authorization_encryption_enc_values_supported".

(* ------------------------------------------------------------ verifier metadata *)
(** [VpFormats], verifier.rs:9-58 *)
Definition p_vp_formats : tparam format_map :=
  mk_tparam "vp_formats_supported" format_map_of_json (infallible format_map_to_json).
(** [supports_security_method], verifier.rs:25-37 *)
Definition supports_security_method (m : format_map) (d : designation) (meth : string) : bool :=
  match fm_get d m with
  | Some (AlgValues l) => mem_str meth l
  | Some (ProofTypeValues l) => mem_str meth l
  | _ => false
  end.
(** [JWKs], verifier.rs:60-84 *)
Definition p_jwks : tparam (list obj) :=
  mk_tparam "jwks"
    (fun j => let? fs := de_fields ["keys"] j in f_req (de_list de_obj) (nth_fld 0 fs))
    (infallible (fun ks => JObj [("keys", JArr (map JObj ks))])).
(** [EncryptedResponseEncValuesSupported], verifier.rs:90-116 *)
Definition p_response_encs := p_strings "encrypted_response_enc_values_supported".
Definition default_encs : list string := ["A128GCM"].

(** [ClientMetadata] accessors, parameters.rs:192-234. *)
Definition cm_jwks (cm : obj) : option (res (list obj)) := uo_get p_jwks cm.
Definition cm_vp_formats (cm : obj) : res format_map :=
  match uo_get p_vp_formats cm with Some r => r | None => Err "missing vp_formats" end.
Definition cm_encs (cm : obj) : res (list string) := uo_get_or_default p_response_encs default_encs cm.
