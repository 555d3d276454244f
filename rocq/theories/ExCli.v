(** The command line verifier: /repo/examples/cli-verifier/main.rs.  What it shows while it runs (main.rs:141-189,
    638-676) is in ExConsole.v; banners and QR codes are not modelled. *)
From Coq Require Import ZArith.
From Verif Require Import Base Utf8 Json JsonText Base64 Serde Url Object Formats Params Metadata Dcql Request Response
  Session Client Builder ExVerifier.

(** [RedirectUriClient], main.rs:92-135: unsigned requests. *)
Definition none_header : json := JObj [("alg", JStr "none"); ("typ", JStr "oauth-authz-req+jwt")].
Definition unsigned_jwt (body : aro) : string :=
  b64url_encode (jprint none_header) +:+ "." +:+ b64url_encode (jprint (aro_to_json body)) +:+ ".".
Definition redirect_uri_client (response_uri : url) : client :=
  mk_client (REDIRECT_URI +:+ ":" +:+ url_str response_uri) REDIRECT_URI (fun body => Ok (unsigned_jwt body)).

(* ------------------------------------------------------------ the query *)
(** main.rs:318-377 *)
Definition ldp_vc_query : cred_query := cred_new "ldp_vc_0" LdpVc.
Definition jwt_vc_query : cred_query := cred_new "jwt_vc_0" JwtVcJson.
Definition vcdm2_query : cred_query := cred_new "vcdm2_sd_jwt_0" (OtherFormat "vcdm2_sd_jwt").
Definition mdl_query : cred_query :=
  mk_cred "mdl_0" MsoMDoc [("doctype_value", JStr "org.iso.18013.5.1.mDL")]
    (Some [claims_new [PeStr "org.iso.18013.5.1"; PeStr "given_name"];
           claims_new [PeStr "org.iso.18013.5.1"; PeStr "family_name"]])
    None None None None.

(** One round of the loop of [build_dcql_query_for_types], main.rs:393-431: the queries and the options of the
    credential set that a type adds. *)
Definition for_type (t : string) : res (list cred_query * list (list string)) :=
  if String.eqb t "mdl" then Ok ([mdl_query], [["mdl_0"]])
  else if String.eqb t "ldp_vc" then Ok ([ldp_vc_query], [["ldp_vc_0"]])
  else if String.eqb t "jwt_vc" then Ok ([jwt_vc_query], [["jwt_vc_0"]])
  else if String.eqb t "vcdm2_sd_jwt" then Ok ([vcdm2_query], [["vcdm2_sd_jwt_0"]])
  else if String.eqb t "ldp_or_mdl" then Ok ([ldp_vc_query; mdl_query], [["ldp_vc_0"]; ["mdl_0"]])
  else Err "Unknown credential type".
(** [NonEmptyVec::try_from(..).expect(..)], main.rs:438,447,453 and utils.rs:27-36. *)
Definition ne_expect {A} (l : list A) : res (list A) := match l with [] => Err "panic" | _ => Ok l end.
(** [build_dcql_query_for_types], main.rs:387-458, without the description. *)
Definition query_for_types (types : list string) : res dcql :=
  let? l := mapM for_type types in
  let queries := flat_map fst l in
  let sets := map snd l in
  match queries with
  | [] => Err "At least one credential type must be specified"
  | _ =>
      let? queries := ne_expect queries in
      match sets with
      | [] => Ok (mk_dcql queries None)
      | _ =>
          let? sets := mapM (fun o => rmap sets_new (ne_expect o)) sets in
          let? sets := ne_expect sets in
          Ok (mk_dcql queries (Some sets))
      end
  end.

(* ------------------------------------------------------------ metadata *)
Definition proof_types : list string :=
  ["Ed25519Signature2018"; "Ed25519Signature2020"; "JsonWebSignature2020"; "DataIntegrityProof";
   "ecdsa-rdfc-2019"; "ecdsa-sd-2023"; "ecdsa-jcs-2019"].
Definition vcdm2_payload : payload := OtherPayload (JObj [("alg_values", jstrs ["ES256"; "ES384"; "EdDSA"])]).
(** One round of the loop of [build_client_metadata], main.rs:472-541. *)
Definition add_formats (m : format_map) (t : string) : format_map :=
  if String.eqb t "mdl" then fm_insert MsoMDoc (OtherPayload (JObj [])) m
  else if String.eqb t "ldp_vc" then fm_insert LdpVc (ProofTypeValues proof_types) m
  else if String.eqb t "jwt_vc" then fm_insert JwtVcJson (AlgValues ["ES256"; "ES384"; "ES512"; "EdDSA"]) m
  else if String.eqb t "vcdm2_sd_jwt" then fm_insert (OtherFormat "vcdm2_sd_jwt") vcdm2_payload m
  else if String.eqb t "ldp_or_mdl" then
    fm_insert LdpVc (ProofTypeValues proof_types) (fm_insert MsoMDoc (OtherPayload (JObj [])) m)
  else m.
(** [build_client_metadata], main.rs:469-550. *)
Definition cli_client_metadata (types : list string) : obj :=
  uo_put p_vp_formats_supported (fold_left add_formats types []) [].

Section Cli.
Variable url_parse : string -> option url.

(** [create_wallet_metadata], main.rs:557-603. *)
Definition cli_wallet : res wallet_metadata :=
  let? endpoint := ok_or (url_parse "openid4vp://") "invalid URL" in
  let formats :=
    fm_insert (OtherFormat "vcdm2_sd_jwt") vcdm2_payload
      (fm_insert JwtVcJson (AlgValues ["ES256"; "ES384"; "EdDSA"])
        (fm_insert LdpVc (ProofTypeValues ["Ed25519Signature2018"; "Ed25519Signature2020"; "JsonWebSignature2020"])
          (fm_insert MsoMDoc (OtherPayload (JObj [])) []))) in
  let w := wm_new url_parse endpoint formats None in
  Ok (mk_wm (uo_put p_client_id_prefixes [REDIRECT_URI] (wm_obj w)) (wm_endpoint w) (wm_formats w)).

(** [Url::set_path] for a path that needs no escaping, on a URL that can be a base. *)
Definition with_path (u : url) (p : string) : url :=
  mk_url (u_scheme u) (u_auth u) p (u_opaque u) (u_query u) (u_frag u).

(** The setup part of [main], main.rs:698-750: the verifier, and the request built for the session [id] with
    the nonce [fresh].  Simplification: the public URL can be a base. *)
Definition cli_verifier (public : url) : res verifier :=
  let response_uri := with_path public "/response" in
  vb_build
    (vb_with_default p_response_mode DirectPost
      (vb_with_default p_response_type RtVpToken
        (vb_by_reference (with_path public "/request")
          (vb_with_submission response_uri
            (vb_with_store (vb_with_client (redirect_uri_client response_uri) vb_new)))))).
Definition cli_builder (v : verifier) (types : list string) (q : dcql) (fresh : uuid) : request_builder :=
  rb_with_param p_client_metadata (cli_client_metadata types)
    (rb_with_param p_nonce (uuid_str fresh) (rb_with_dcql q (rb_new v))).
Definition cli_setup (public : url) (types : list string) (fresh id : uuid) : store * res url :=
  match (let? v := cli_verifier public in
         let? wm := cli_wallet in
         let? q := query_for_types types in
         Ok (v, wm, q)) with
  | Ok (v, wm, q) => build_with_session_id url_parse (cli_builder v types q fresh) id wm false []
  | Err e => ([], Err e)
  end.

(** [get_request_object], main.rs:194-217, and [receive_response], main.rs:220-272; every error is answered
    with 500 (main.rs:278-298). *)
Definition cli_request_object (sid : string) : prog reply :=
  match uuid_of_string sid with
  | None => Done (Ok (RError 500))
  | Some u => pfinish (fun r : res string => match r with Ok jwt => RJwt jwt | Err _ => RError 500 end) (retrieve_code u)
  end.
Definition cli_receive (sid body : string) : prog reply :=
  if utf8_valid body then
    match uuid_of_string sid with
    | None => Done (Ok (RError 500))
    | Some u => match from_form body with
                | Err _ => Done (Ok (RError 500))
                | Ok r => pfinish response_reply (verify_code u r)
                end
    end
  else Done (Ok (RError 400)).
(** The validator, main.rs:238-268.  The identifiers come in the iteration order of the token's map. *)
Definition cli_validator (s : session) (r : auth_response) : outcome :=
  match r with
  | Unencoded u =>
      OSuccess (JObj [("credential_query_ids", jstrs (map fst (ur_vp_token u)));
                      ("credentials_received", JInt (Z.of_nat (vp_len (ur_vp_token u))))])
  | Jwt _ => OFailure "Encrypted responses (direct_post.jwt) not supported in this example"
  end.
End Cli.
