(** Which JSON is which parameter (C98) *)
From Coq Require Import Sorting.Permutation Lia ZArith.
From Verif Require Import Base BaseFacts Json JsonFacts Serde MapFacts Url Object Formats Params Dcql Response Metadata
  Spec SpecDcql SpecReading ParamFacts PfQuery.
From Verif Require SpecResponse PfResponse PfParams.
From Verif Require Import PfReading.

(** C98: text parameters are exactly JSON strings, and lists of text exactly arrays of strings, each under its own name. *)
Theorem c98_text
  : held_as p_client_id "client_id" is_text (as_read is_text) always
    /\ held_as p_nonce "nonce" is_text (as_read is_text) always
    /\ held_as p_audience "aud" is_text (as_read is_text) always
    /\ held_as p_state "state" is_text (as_read is_text) always
    /\ held_as p_issuer "issuer" is_text (as_read is_text) always
    /\ held_as p_id_token "id_token" is_text (as_read is_text) always
    /\ held_as p_expected_origins "expected_origins" is_texts (as_read is_texts) always
    /\ held_as p_transaction_data "transaction_data" is_texts (as_read is_texts) always
    /\ held_as p_client_id_prefixes "client_id_prefixes_supported" is_texts (as_read is_texts) always
    /\ held_as p_signing_algs "request_object_signing_alg_values_supported" is_texts (as_read is_texts) always
    /\ held_as p_encryption_algs "authorization_encryption_alg_values_supported" is_texts (as_read is_texts) always
    /\ held_as p_encryption_encs "authorization_encryption_enc_values_supported" is_texts (as_read is_texts) always
    /\ held_as p_response_encs "encrypted_response_enc_values_supported" is_texts (as_read is_texts) always.
Proof. exact c98_text_pf. Qed.
Print Assumptions c98_text.

Example c98_text_witness
  : uo_get p_nonce [("aud", JStr "a"); ("nonce", JStr "n")] = Some (Ok "n")
    /\ uo_get p_state [("aud", JStr "a")] = None
    /\ (exists e, uo_get p_expected_origins [("expected_origins", JArr [JStr "a"; JNull])] = Some (Err e)).
Proof. exact c98_text_ex. Qed.

(** C98: the response mode, the response type and the request method are the listed names; any other text is kept as an
    unsupported mode or type, and is no request method. *)
Theorem c98_enum
  : held_as p_response_mode "response_mode" is_mode (as_read is_mode) canonical_mode
    /\ held_as p_response_type "response_type" is_type (as_read is_type) canonical_type
    /\ held_as p_response_types_supported "response_types_supported" (is_list is_type) (as_read (is_list is_type)) (Forall canonical_type)
    /\ held_as p_request_uri_method "request_uri_method" is_method (as_read is_method) always.
Proof. exact c98_enum_pf. Qed.
Print Assumptions c98_enum.

Example c98_enum_witness
  : uo_get p_response_mode [("response_mode", JStr "query")] = Some (Ok (UnsupportedMode "query"))
    /\ uo_get p_response_type [("response_type", JStr "vp_token id_token")] = Some (Ok RtVpTokenIdToken)
    /\ (exists e, uo_get p_request_uri_method [("request_uri_method", JStr "POST")] = Some (Err e)).
Proof. exact c98_enum_ex. Qed.

(** C98: URL parameters are the texts the URL parser accepts, and are written as the URL's text. *)
Theorem c98_url
  : forall parse : string -> option url,
    held_as (p_redirect_uri parse) "redirect_uri" (is_url parse) (fun u v => v = JStr (url_str u)) always
    /\ held_as (p_response_uri parse) "response_uri" (is_url parse) (fun u v => v = JStr (url_str u)) always
    /\ held_as (p_authorization_endpoint parse) "authorization_endpoint" (is_url parse) (fun u v => v = JStr (url_str u)) always.
Proof. exact c98_url_pf. Qed.
Print Assumptions c98_url.

Example c98_url_witness
  : exists u, uo_get (p_response_uri simple_parse) [("response_uri", JStr "https://a.example/p")] = Some (Ok u) /\ url_authority u = "a.example".
Proof. exact c98_url_ex. Qed.

(** C98: client metadata are exactly an object, verifier information any array, a key set an object whose member "keys"
    is an array of objects, and a query is read as C87 says. *)
Theorem c98_structured
  : held_as p_client_metadata "client_metadata" is_object (as_read is_object) always
    /\ held_as p_verifier_info "verifier_info" (is_list is_any) (fun l v => v = JArr l) always
    /\ held_as p_jwks "jwks" is_key_set (fun ks v => v = JObj [("keys", JArr (map JObj ks))]) always
    /\ held_as p_dcql "dcql_query" is_query (as_read is_query) dcql_ok.
Proof. exact c98_structured_pf. Qed.
Print Assumptions c98_structured.

Example c98_structured_witness
  : uo_get p_jwks [("jwks", JArr [JArr [JObj [("kty", JStr "EC")]]])] = Some (Ok [[("kty", JStr "EC")]])
    /\ uo_get p_verifier_info [("verifier_info", JArr [JNull; JStr "x"])] = Some (Ok [JNull; JStr "x"])
    /\ (exists e, uo_get p_client_metadata [("client_metadata", JArr [])] = Some (Err e)).
Proof. exact c98_structured_ex. Qed.

(** C98: formats are an object with one member per format, named after it: the listed algorithms or proof types, or
    anything else, kept as it is.  A VP token is an object with one member per credential query id, each an array of
    texts and objects; if any member is something else it is no VP token. *)
Theorem c98_maps
  : held_as_map p_vp_formats_supported "vp_formats_supported" is_formats format_map_ok
    /\ held_as_map p_vp_formats "vp_formats_supported" is_formats format_map_ok
    /\ held_as_map p_vp_token "vp_token" is_token vp_ok.
Proof. exact c98_maps_pf. Qed.
Print Assumptions c98_maps.

Example c98_maps_witness
  : uo_get p_vp_formats [("vp_formats_supported", JObj [("ldp_vc", JObj [("proof_type_values", JArr [JStr "a"])]); ("x", JNull)])]
      = Some (Ok [(LdpVc, ProofTypeValues ["a"]); (OtherFormat "x", OtherPayload JNull)])
    /\ uo_get p_vp_token [("vp_token", JObj [("a", JArr [JStr "p"; JObj []])])] = Some (Ok [("a", [VpString "p"; VpObject []])])
    /\ (exists e, uo_get p_vp_token [("vp_token", JObj [("a", JArr []); ("b", JStr "p")])] = Some (Err e)).
Proof. exact c98_maps_ex. Qed.

(** C98: every JSON value is a claim format: the one its only member names, if that member's value fits; otherwise a
    format of its own, kept as it is. *)
Theorem c98_claim_format
  : forall (j : json) (c : claim_format), cf_of_json j = Ok c <-> is_claim_format j c.
Proof. exact c98_claim_format_pf. Qed.
Print Assumptions c98_claim_format.

Example c98_claim_format_witness
  : cf_of_json (JObj [("ldp_vc", JArr [JArr [JStr "a"]])]) = Ok (CfLdpVc ["a"])
    /\ cf_of_json (JObj [("ldp_vc", JNull)]) = Ok (CfOther (JObj [("ldp_vc", JNull)])).
Proof. exact c98_claim_format_ex. Qed.
