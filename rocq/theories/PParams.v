(** C03, C04, C05, C64: typed parameters. *)
From Coq Require Import Sorting.Permutation Lia ZifyBool ZifyN ZifyNat.
From Verif Require Import Base BaseFacts Base64Facts Json JsonFacts Serde MapFacts Url Object Formats Params
  Dcql Response Spec SpecObject ParamFacts UrlEncodedFacts.
From Verif Require Import PfParams.

(** C03: every text-valued and text-list-valued request, client and wallet metadata parameter. *)
Theorem c03_text_params :
  param_rt p_client_id (fun _ => True) /\ param_rt p_nonce (fun _ => True)
  /\ param_rt p_audience (fun _ => True) /\ param_rt p_state (fun _ => True)
  /\ param_rt p_issuer (fun _ => True) /\ param_rt p_id_token (fun _ => True)
  /\ param_rt p_expected_origins (fun _ => True) /\ param_rt p_transaction_data (fun _ => True)
  /\ param_rt p_client_id_prefixes (fun _ => True) /\ param_rt p_signing_algs (fun _ => True)
  /\ param_rt p_encryption_algs (fun _ => True) /\ param_rt p_encryption_encs (fun _ => True)
  /\ param_rt p_response_encs (fun _ => True).
Proof. exact c03_text_params_pf. Qed.
Print Assumptions c03_text_params.

(** C03: enumerated parameters; a value that is not the catch-all spelled as a known name. *)
Theorem c03_enum_params :
  param_rt p_response_mode canonical_mode
  /\ param_rt p_response_type canonical_type
  /\ param_rt p_request_uri_method (fun _ => True)
  /\ param_rt p_response_types_supported (Forall canonical_type).
Proof. exact c03_enum_params_pf. Qed.
Print Assumptions c03_enum_params.

Example c03_enum_params_witness :
  canonical_mode (UnsupportedMode "query") /\ canonical_type (UnsupportedType "code")
  /\ Forall canonical_type [RtVpToken; UnsupportedType "code"]
  /\ ~ canonical_mode (UnsupportedMode "dc_api").
Proof. exact c03_enum_params_ex. Qed.

(** C03: URL-valued parameters, for every URL whose text the URL parser reads back. *)
Theorem c03_url_params :
  forall parse : string -> option url,
    param_rt (p_redirect_uri parse) (fun u => parse (url_str u) = Some u)
    /\ param_rt (p_response_uri parse) (fun u => parse (url_str u) = Some u)
    /\ param_rt (p_authorization_endpoint parse) (fun u => parse (url_str u) = Some u).
Proof. exact c03_url_params_pf. Qed.
Print Assumptions c03_url_params.

Example c03_url_params_witness :
  let u := mk_url "https" (Some "example.com:8080") "/a/b" false (Some "x=y") None in
  simple_parse (url_str u) = Some u.
Proof. exact c03_url_params_ex. Qed.

(** C03: object-, key-set-, JSON-list- and query-valued parameters. *)
Theorem c03_structured_params :
  param_rt p_client_metadata (fun _ => True)
  /\ param_rt p_verifier_info (fun _ => True)
  /\ param_rt p_jwks (fun _ => True)
  /\ param_rt p_dcql dcql_ok.
Proof. exact c03_structured_params_pf. Qed.
Print Assumptions c03_structured_params.

Example c03_structured_params_witness :
  dcql_ok (mk_dcql [mk_cred "pid" MsoMDoc [("doctype_value", JStr "eu.europa.ec.eudi.pid.1")]
                      (Some [mk_claims (Some "a") [PeStr "ns"; PeInt 3; PeNull] (Some [CvInt (-5); CvBool true]) None])
                      (Some [["a"]]) (Some [mk_auths AtAki ["x"]]) (Some true) None]
                   (Some [mk_set [["pid"]] (Some false)])).
Proof. exact c03_structured_params_ex. Qed.

(** C03: parameters holding a hash map come back with the same entries, in whatever order. *)
Theorem c03_map_params :
  (forall m, format_map_ok m ->
     (exists v m', tp_to p_vp_formats_supported m = Ok v /\ tp_of p_vp_formats_supported v = Ok m'
                   /\ Permutation m m' /\ forall d, fm_get d m' = fm_get d m)
     /\ (exists v m', tp_to p_vp_formats m = Ok v /\ tp_of p_vp_formats v = Ok m' /\ Permutation m m'
                      /\ forall d, fm_get d m' = fm_get d m))
  /\ (forall t, vp_ok t -> Forall (fun e => Forall (fun i => match i with
                                                  | VpObject m => jsorted (JObj m) = true
                                                  | VpString _ => True end) (snd e)) t ->
        exists v t', tp_to p_vp_token t = Ok v /\ tp_of p_vp_token v = Ok t' /\ Permutation t t').
Proof. exact c03_map_params_pf. Qed.
Print Assumptions c03_map_params.

Example c03_map_params_witness :
  format_map_ok [(MsoMDoc, OtherPayload (JObj [])); (DcSdJwt, AlgValues ["ES256"]);
                 (OtherFormat "x", ProofTypeValues [])].
Proof. exact c03_map_params_ex. Qed.

(** C03: hence inserting any such value into an object and reading it back gives the value. *)
Theorem c03_insert_get :
  forall (T : Type) (P : tparam T) (ok : T -> Prop) (t : T) (o : obj),
    param_rt P ok -> ok t -> uo_get P (fst (uo_insert P t o)) = Some (Ok t).
Proof. exact c03_insert_get_pf. Qed.
Print Assumptions c03_insert_get.

Example c03_insert_get_witness :
  uo_get p_response_mode (fst (uo_insert p_response_mode DcApiJwt [("response_mode", JStr "direct_post")]))
  = Some (Ok DcApiJwt).
Proof. exact c03_insert_get_ex. Qed.

(** C04: the prefix is the text before the first colon; no colon, no prefix. *)
Theorem c04_prefix :
  forall client_id : string,
    (forall p, resolve_prefix client_id = Some p
               <-> exists rest, client_id = p +:+ ":" +:+ rest /\ has_char ":" p = false)
    /\ (resolve_prefix client_id = None <-> ~ exists a b, client_id = a +:+ ":" +:+ b).
Proof. exact c04_prefix_pf. Qed.
Print Assumptions c04_prefix.

Example c04_prefix_witness :
  resolve_prefix "decentralized_identifier:did:example:1" = Some "decentralized_identifier"
  /\ resolve_prefix "client" = None /\ resolve_prefix ":x" = Some "".
Proof. exact c04_prefix_ex. Qed.

(** C05: response mode names are recognised exactly and printed back unchanged. *)
Theorem c05_modes :
  forall s : string,
    (mode_of_string s = DirectPost <-> s = "direct_post")
    /\ (mode_of_string s = DirectPostJwt <-> s = "direct_post.jwt")
    /\ (mode_of_string s = DcApi <-> s = "dc_api")
    /\ (mode_of_string s = DcApiJwt <-> s = "dc_api.jwt")
    /\ (forall x, mode_of_string s = UnsupportedMode x
                  <-> x = s /\ ~ In s ["direct_post"; "direct_post.jwt"; "dc_api"; "dc_api.jwt"])
    /\ mode_to_string (mode_of_string s) = s.
Proof. exact c05_modes_pf. Qed.
Print Assumptions c05_modes.

Example c05_modes_witness :
  mode_of_string "direct_post.jwt" = DirectPostJwt /\ mode_of_string "DIRECT_POST" = UnsupportedMode "DIRECT_POST".
Proof. exact c05_modes_ex. Qed.

(** C05: reading the parameter: absent means direct_post; a mode asks for an encrypted response exactly
    when its name is direct_post.jwt or dc_api.jwt; an unknown mode is an error. *)
Theorem c05_jarm :
  forall (o : obj) (m : response_mode),
    uo_get_or_default p_response_mode default_mode o = Ok m ->
    (obj_get "response_mode" o = None /\ m = DirectPost
     \/ exists s, obj_get "response_mode" o = Some (JStr s) /\ mode_to_string m = s)
    /\ (is_jarm m = Ok true <-> In (mode_to_string m) ["direct_post.jwt"; "dc_api.jwt"] /\ canonical_mode m)
    /\ (is_jarm m = Ok false <-> In (mode_to_string m) ["direct_post"; "dc_api"] /\ canonical_mode m)
    /\ ((exists e, is_jarm m = Err e)
        <-> ~ In (mode_to_string m) ["direct_post"; "direct_post.jwt"; "dc_api"; "dc_api.jwt"]).
Proof. exact c05_jarm_pf. Qed.
Print Assumptions c05_jarm.

Example c05_jarm_witness :
  uo_get_or_default p_response_mode default_mode [("response_mode", JStr "dc_api.jwt")] = Ok DcApiJwt
  /\ is_jarm DcApiJwt = Ok true.
Proof. exact c05_jarm_ex. Qed.

(** C64: whatever the random source delivers, a nonce of length [n] consists of exactly [n] letters and
    digits. *)
Theorem c64_nonce :
  forall (words : list N) (n : nat) (s : string),
    sample_string words n = Some s ->
    String.length s = n /\ Forall alphanumeric (list_ascii_of_string s).
Proof. exact c64_nonce_pf. Qed.
Print Assumptions c64_nonce.

Example c64_nonce_witness :
  sample_string [0; 4294967295; 67108864; 4093640704]%N 3 = Some "AB9".
Proof. exact c64_nonce_ex. Qed.

(** C64: every letter or digit is the image of exactly one value of the six random bits used, so
    accepted random words give uniformly distributed characters; a nonce is produced as soon as enough
    words are accepted. *)
Theorem c64_uniform :
  (forall c, alphanumeric c ->
     exists! i, (i < 62)%N /\ forall w, alnum_char w = Some c <-> (w / 67108864 = i)%N)
  /\ (forall w, alnum_char w = None <-> (62 <= w / 67108864)%N)
  /\ (forall words n, n <= length (filter (fun w => w / 67108864 <? 62)%N words) ->
        exists s, sample_string words n = Some s).
Proof. exact c64_uniform_pf. Qed.
Print Assumptions c64_uniform.

Example c64_uniform_witness : alphanumeric "q" /\ ~ alphanumeric "-".
Proof. exact c64_uniform_ex. Qed.
