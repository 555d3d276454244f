(** The command line verifier (C80, C81, C82) *)
From Coq Require Import Lia ZArith.
From Verif Require Import Base BaseFacts Utf8 Json JsonFacts JsonText JsonTextFacts Base64 Serde Url UrlEncoded Object Formats Params ParamFacts Metadata
  Dcql Effects Jwt Request Response Session X509 Client Builder Server ExMatcher ExWallet ExVerifier ExCli.
From Verif Require Import MapFacts Spec SpecObject SpecRequest PfRequest PfResolve SpecResponse SpecJwe SpecBuilder SpecSession StoreFacts PfBuilder
  UuidFacts PfSession PfServer SpecExample PfExample SpecVerifierEx PfExServer PfExInitiate PfInterop SpecCli.
From Verif Require Import PfExCli.

(** C81: the command line verifier accepts exactly the non-empty lists of the five type names. *)
Theorem c81_accepts
  : forall types : list string,
    (exists q, query_for_types types = Ok q) <-> types <> [] /\ forall t, In t types -> known t.
Proof. exact c81_accepts_pf. Qed.
Print Assumptions c81_accepts.

Example c81_accepts_witness :
  is_ok (query_for_types ["mdl"; "vcdm2_sd_jwt"; "ldp_or_mdl"]) = true /\ is_ok (query_for_types []) = false
  /\ is_ok (query_for_types ["mdl"; "MDL"]) = false.
Proof. exact c81_accepts_ex. Qed.

(** C81: the query asks, type by type and in order, for the credentials of the type; there is one required credential
    set per type, whose options are the single alternatives of that type. *)
Theorem c81_query
  : forall (types : list string) (q : dcql),
    query_for_types types = Ok q ->
    exists alternatives sets,
      Forall2 offers types alternatives
      /\ map (fun c => (cq_id c, cq_format c)) (dq_credentials q) = concat alternatives
      /\ Forall asks_claims (dq_credentials q)
      /\ dq_sets q = Some sets
      /\ Forall2 (fun alts s => is_required s = true /\ cs_options s = map (fun a => [fst a]) alts) alternatives sets.
Proof. exact c81_query_pf. Qed.
Print Assumptions c81_query.

Example c81_query_witness :
  rmap (fun q => (map cq_id (dq_credentials q), option_map (map cs_options) (dq_sets q))) (query_for_types ["jwt_vc"; "ldp_or_mdl"])
  = Ok (["jwt_vc_0"; "ldp_vc_0"; "mdl_0"], Some [[["jwt_vc_0"]]; [["ldp_vc_0"]; ["mdl_0"]]]).
Proof. exact c81_query_ex. Qed.

(** C81: every credential asked for is an option of some credential set, and every option names a credential asked
    for. *)
Theorem c81_covered
  : forall (types : list string) (q : dcql) (sets : list set_query_) (id : string),
    query_for_types types = Ok q -> dq_sets q = Some sets ->
    (In id (map cq_id (dq_credentials q)) <-> exists s option, In s sets /\ In option (cs_options s) /\ In id option).
Proof. exact c81_covered_pf. Qed.
Print Assumptions c81_covered.

Example c81_covered_witness :
  match query_for_types ["mdl"; "ldp_or_mdl"] with
  | Ok q => map cq_id (dq_credentials q) = ["mdl_0"; "ldp_vc_0"; "mdl_0"]
            /\ match dq_sets q with Some sets => length sets = 2 | None => False end
  | Err _ => False
  end.
Proof. exact c81_covered_ex. Qed.

(** C81: the metadata that go with the query list exactly the formats asked for, each with its algorithms. *)
Theorem c81_formats
  : forall (types : list string) (q : dcql),
    query_for_types types = Ok q ->
    exists formats,
      obj_get "vp_formats_supported" (cli_client_metadata types) = Some (JObj formats)
      /\ forall n v, obj_get n formats = Some v <-> In (n, v) algorithms /\ exists c, In c (dq_credentials q) /\ name (cq_format c) = n.
Proof. exact c81_formats_pf. Qed.
Print Assumptions c81_formats.

Example c81_formats_witness :
  obj_get "vp_formats_supported" (cli_client_metadata ["jwt_vc"; "mdl"])
  = Some (JObj [("jwt_vc_json", JObj [("alg_values", jstrs ["ES256"; "ES384"; "ES512"; "EdDSA"])]); ("mso_mdoc", JObj [])]).
Proof. exact c81_formats_ex. Qed.

(** C81: the identifiers in the query are distinct when no type is repeated and ldp_or_mdl is not combined with
    ldp_vc or mdl. *)
Theorem c81_ids
  : forall (types : list string) (q : dcql),
    query_for_types types = Ok q -> NoDup types ->
    (In "ldp_or_mdl" types -> ~ In "ldp_vc" types /\ ~ In "mdl" types) ->
    NoDup (map cq_id (dq_credentials q)).
Proof. exact c81_ids_pf. Qed.
Print Assumptions c81_ids.

Example c81_ids_witness :
  rmap (fun q => map cq_id (dq_credentials q)) (query_for_types ["vcdm2_sd_jwt"; "ldp_or_mdl"; "jwt_vc"])
  = Ok ["vcdm2_sd_jwt_0"; "ldp_vc_0"; "mdl_0"; "jwt_vc_0"].
Proof. exact c81_ids_ex. Qed.

(** C81: nothing keeps the identifiers distinct otherwise: a type given twice, or ldp_vc next to ldp_or_mdl, gives a
    query with an identifier used twice. *)
Theorem c81_ids_refuted
  : exists (types types' : list string) (q q' : dcql),
    query_for_types types = Ok q /\ ~ NoDup (map cq_id (dq_credentials q))
    /\ query_for_types types' = Ok q' /\ ~ NoDup (map cq_id (dq_credentials q')) /\ NoDup types'.
Proof. exact c81_ids_refuted_pf. Qed.
Print Assumptions c81_ids_refuted.

(** C80: starting the command line verifier stores one session, whose request object has the identifier redirect_uri:
    followed by its response endpoint, the response endpoint of the session as response URI, the mode direct_post, a
    fresh nonce, the query and the formats asked for; the JWT is that object, unsigned; the URL shown points the wallet
    to the request endpoint of the session. *)
Theorem c80_setup
  : forall (url_parse : string -> option url) (public : url) (types : list string) (fresh id : uuid) (m : store) (dest : url),
    cli_setup url_parse public types fresh id = (m, Ok dest) ->
    exists q sess base response base' request wallet endpoint,
      query_for_types types = Ok q
      /\ endpoint_at public "/response" base /\ extended base (uuid_str id) response
      /\ endpoint_at public "/request" base' /\ extended base' (uuid_str id) request
      /\ st_get id m = Some sess /\ (forall id', id' <> id -> st_get id' m = None)
      /\ s_status sess = SentRequestByReference /\ s_dcql sess = q
      /\ cli_asks (aro_to_obj (s_request sess)) base response (uuid_str fresh) q (map (fun c => name (cq_format c)) (dq_credentials q))
      /\ unsigned (s_jwt sess) (aro_to_json (s_request sess))
      /\ url_parse "openid4vp://" = Some wallet /\ url_parse (url_str wallet) = Some endpoint
      /\ to_url (mk_ar (Some ("redirect_uri:" +:+ url_str base)) (ByReference request)) endpoint = Ok dest.
Proof. exact c80_setup_pf. Qed.
Print Assumptions c80_setup.

Example c80_setup_witness :
  rmap url_str (snd cli_toy)
  = Ok "openid4vp://?client_id=redirect_uri%3Ahttps%3A%2F%2Fv.example%2Fresponse&request_uri=https%3A%2F%2Fv.example%2Frequest%2F00000000-0000-0000-0000-000000000007".
Proof. exact c80_setup_ex. Qed.

(** C80: it starts whenever the types are known, the public URL is a base URL, and the URLs involved can be read
    back. *)
Theorem c80_succeeds
  : forall (url_parse : string -> option url) (public : url) (types : list string) (fresh id : uuid) (w : url),
    types <> [] -> (forall t, In t types -> known t) -> u_opaque public = false ->
    url_parse "openid4vp://" = Some w -> url_parse (url_str w) <> None ->
    (forall base r, endpoint_at public "/response" base -> extended base (uuid_str id) r -> url_parse (url_str r) <> None) ->
    exists m dest, cli_setup url_parse public types fresh id = (m, Ok dest).
Proof. exact c80_succeeds_pf. Qed.
Print Assumptions c80_succeeds.

Example c80_succeeds_witness :
  known "ldp_or_mdl" /\ u_opaque (toy_url "https://v.example/") = false
  /\ match simple_parse "openid4vp://" with Some w => simple_parse (url_str w) <> None | None => False end
  /\ is_ok (snd cli_toy) = true.
Proof. exact c80_succeeds_ex. Qed.

(** C80: a wallet that accepts unsigned JWTs reads exactly that object from the JWT. *)
Theorem c80_readable
  : forall (ssi_header : obj -> option bool) (response_uri : url),
    (forall h, members_are (JObj h) [("alg", JStr "none"); ("typ", JStr "oauth-authz-req+jwt")] -> ssi_header h = Some true) ->
    readable_client ssi_header (redirect_uri_client response_uri).
Proof. exact c80_readable_pf. Qed.
Print Assumptions c80_readable.

Example c80_readable_witness :
  let o := obj_insert "client_id" (JStr "redirect_uri:https://v.example/response") sample_request in
  decode_unverified any_header (unsigned_jwt (body_of o)) = Ok o.
Proof. exact c80_readable_ex. Qed.

(** C80: yet the example wallet never answers the command line verifier: the response URI of the session is not the
    URI in the client identifier.  Whenever the wallet resolves an authorization request to the request object of the
    session, it makes no POST and reports an error. *)
Theorem c80_unanswered
  : forall (url_parse : string -> option url) (ssi_header : obj -> option bool) (uri_ok : string -> bool)
      (jwk_ok : obj -> bool) (jwe_encrypt : obj -> obj -> obj -> res string) (lower sign : string -> string) (now : Z)
      (http : http_client) (endpoint : url) (credentials : list credential) (auto_consent : bool) (p : params)
      (public : url) (types : list string) (fresh id : uuid) (m : store) (dest : url) (sess : session)
      (ar : auth_request) (a : aro) (jwt : option string),
    cli_setup url_parse public types fresh id = (m, Ok dest) -> st_get id m = Some sess ->
    (forall base r, endpoint_at public "/response" base -> extended base (uuid_str id) r -> url_parse (url_str r) = Some r) ->
    let run := authorize url_parse ssi_header uri_ok jwk_ok jwe_encrypt lower sign now http endpoint credentials auto_consent p in
    from_url url_parse (build_request_url endpoint p) endpoint = Ok ar ->
    snd (resolve_request url_parse ssi_header uri_ok http ar) = Ok (a, jwt) ->
    aro_to_obj a = aro_to_obj (s_request sess) ->
    posts (http_events (fst run)) = [] /\ exists e, snd run = Err e.
Proof. exact c80_unanswered_pf. Qed.
Print Assumptions c80_unanswered.

Example c80_unanswered_witness :
  length (fst cli_wallet_run) = 1 /\ snd cli_wallet_run = Err "response_uri must match client_id".
Proof. exact c80_unanswered_ex. Qed.

(** C82: a response POSTed to the command line verifier is answered with 200 exactly when it can be read and its session
    exists; then the session is complete: successful with the number and the identifiers of the credentials received,
    whatever they are, or failed for an encrypted response; other sessions are untouched.  Otherwise it is answered with
    an error and nothing changes. *)
Theorem c82_received
  : forall (sid body : string) (m : store),
    let '(m', calls, x) := run false cli_validator (cli_receive sid body) m in
    (exists u r s s', uuid_of_string sid = Some u /\ utf8_valid body = true /\ from_form body = Ok r /\ st_get u m = Some s
       /\ x = Ok (RJson 200 (JObj [])) /\ st_get u m' = Some s' /\ same_request s s'
       /\ (forall u', u' <> u -> st_get u' m' = st_get u' m)
       /\ match r with
          | Unencoded t => exists info, s_status s' = Complete (OSuccess info)
              /\ members_are info [("credentials_received", JInt (Z.of_nat (length (ur_vp_token t))));
                                   ("credential_query_ids", JArr (map JStr (map fst (ur_vp_token t))))]
          | Jwt _ => exists reason, s_status s' = Complete (OFailure reason)
          end)
    \/ x = Ok (RError (if utf8_valid body then 500 else 400)) /\ m' = m
       /\ (utf8_valid body = false \/ uuid_of_string sid = None \/ (forall r, from_form body <> Ok r)
           \/ exists u, uuid_of_string sid = Some u /\ st_get u m = None).
Proof. exact c82_received_pf. Qed.
Print Assumptions c82_received.

Example c82_received_witness :
  exists s, st_get 7%N (fst cli_toy) = Some s
  /\ snd (run false cli_validator (cli_receive (uuid_str 7%N) "vp_token={}") (fst cli_toy)) = Ok (RJson 200 (JObj []))
  /\ snd (run false cli_validator (cli_receive (uuid_str 8%N) "vp_token={}") (fst cli_toy)) = Ok (RError 500).
Proof. exact c82_received_ex. Qed.
