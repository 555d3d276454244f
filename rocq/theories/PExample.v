(** The example wallet (C67, C68, C72-C75) *)
From Coq Require Import Lia.
From Verif Require Import Base BaseFacts Utf8 Json JsonFacts JsonText JsonTextFacts Base64 Base64Facts Sha256 Serde Url UrlEncoded
  UrlEncodedFacts Object Formats Params Metadata Dcql Effects Jwt Request Response Jwe ExMatcher ExWallet
  Verify Client Spec SpecRequest PfRequest PfResolve PfClient PfVerify SpecJwe PfJwe SpecResponse PfResponse SpecExample.
From Verif Require Import PfExample.

(** C67: every credential selected for a credential query has its format and meets its restriction; every
    credential query is covered; nothing is selected for anything else. *)
Theorem c67_sound :
  forall (lower : string -> string) (store : list credential) (q : dcql) (sel : selection),
    match_query lower store q = Ok sel ->
    NoDup (map fst sel)
    /\ (forall cq, In cq (dq_credentials q) ->
          exists raws c, In (cq_id cq, raws) sel /\ In (mc_raw c) raws /\ In c store /\ satisfies lower cq c)
    /\ (forall id raws raw, In (id, raws) sel -> In raw raws ->
          exists cq c, In cq (dq_credentials q) /\ cq_id cq = id /\ In c store /\ mc_raw c = raw /\ satisfies lower cq c).
Proof. exact c67_sound_pf. Qed.
Print Assumptions c67_sound.

Example c67_sound_witness :
  match_query (fun s => s) [pid] (dcql_new [pid_query "a" "urn:pid" "given_name"; pid_query "b" "urn:pid" "given_name"])
  = Ok [("a", ["iss~disc~kb"]); ("b", ["iss~disc~kb"])]
  /\ match_query (fun s => s) [pid] (dcql_new [pid_query "a" "urn:mdl" "given_name"]) = Err "no matching credential"
  /\ match_query (fun s => s) [pid] (dcql_new [mk_cred "a" DcSdJwt [] (Some [claims_new [PeStr "age"]]) None None None None]) = Err "no matching credential".
Proof. exact c67_sound_ex. Qed.

(** C67: matching succeeds exactly when there is a credential query and each is met by some credential. *)
Theorem c67_complete :
  forall (lower : string -> string) (store : list credential) (q : dcql),
    (exists sel, match_query lower store q = Ok sel) <->
    dq_credentials q <> [] /\ forall cq, In cq (dq_credentials q) -> exists c, In c store /\ satisfies lower cq c.
Proof. exact c67_complete_pf. Qed.
Print Assumptions c67_complete.

(** C67: the claims a query asks for are not looked at when it lists types: a credential without the claim is
    selected. *)
Theorem c67_claims_refuted :
  exists (store : list credential) (cq : cred_query) (sel : selection) (n : string),
    match_query (fun s => s) store (dcql_new [cq]) = Ok sel /\ requires_claim cq n
    /\ sel <> [] /\ forall c, In c store -> forall v, ~ In (n, v) (mc_claims c).
Proof. exact c67_claims_refuted_pf. Qed.
Print Assumptions c67_claims_refuted.

(** C67: credential sets are not used: a query whose only set is satisfied by the credentials at hand is still
    refused. *)
Theorem c67_sets_refuted :
  exists (store : list credential) (a b : cred_query) (e : string),
    match_query (fun s => s) store (mk_dcql [a; b] (Some [mk_set [[cq_id a]] (Some true)])) = Err e
    /\ cq_id a <> cq_id b /\ exists c, In c store /\ satisfies (fun s => s) a c.
Proof. exact c67_sets_refuted_pf. Qed.
Print Assumptions c67_sets_refuted.

(** C72: in the token of the example wallet every stored SD-JWT is presented with everything after its last '~'
    replaced by a key binding JWT over the rest, for exactly the nonce and audience given; other credentials
    are presented as they are; there is one entry per query id of the selection. *)
Theorem c72_key_binding :
  forall (sign : string -> string) (now : Z) (sel : selection) (nonce audience : string),
    NoDup (map fst sel) -> clock_ok now -> utf8_valid nonce = true -> utf8_valid audience = true ->
    Forall2 (fun (e : string * list string) (t : string * list vp_item) =>
               fst e = fst t /\ Forall2 (presented sign now nonce audience) (snd e) (snd t))
      sel (build_vp_token sign now sel nonce audience).
Proof. exact c72_key_binding_pf. Qed.
Print Assumptions c72_key_binding.

Example c72_key_binding_witness :
  build_vp_token (fun m => "S") 5 [("a", ["iss~d~old"; "plain"])] "n" "v"
  = [("a", [VpString ("iss~d~" +:+ key_binding_jwt (fun m => "S") 5 "iss~d~" "n" "v"); VpString "plain"])]
  /\ clock_ok 5.
Proof. exact c72_key_binding_ex. Qed.

(** C68: the example wallet POSTs at most once per request, to the response_uri of the request object; when the
    client_id of the object is a redirect_uri identifier, to exactly the URI it contains. *)
Theorem c68_bound :
  forall (url_parse : string -> option url) (ssi_header : obj -> option bool) (uri_ok : string -> bool)
    (jwk_ok : obj -> bool) (jwe_encrypt : obj -> obj -> obj -> res string) (lower sign : string -> string) (now : Z)
    (http : http_client) (endpoint : url) (store : list credential) (auto_consent : bool) (p : params),
    let run := authorize url_parse ssi_header uri_ok jwk_ok jwe_encrypt lower sign now http endpoint store auto_consent p in
    posts (http_events (fst run)) = []
    \/ exists r ar a jwt s u,
         posts (http_events (fst run)) = [r]
         /\ from_url url_parse (build_request_url endpoint p) endpoint = Ok ar
         /\ snd (resolve_request url_parse ssi_header uri_ok http ar) = Ok (a, jwt)
         /\ text_at "response_uri" (aro_to_obj a) s /\ url_parse s = Some u /\ rq_uri r = url_str u
         /\ forall uri, text_at "client_id" (aro_to_obj a) ("redirect_uri:" +:+ uri) -> rq_uri r = uri.
Proof. exact c68_bound_pf. Qed.
Print Assumptions c68_bound.

Example c68_bound_witness :
  ex_posted (Some "redirect_uri:https://v.example/resp") (ex_object "redirect_uri:https://v.example/resp") = ["https://v.example/resp"]
  /\ ex_posted (Some "redirect_uri:https://e.example/") (ex_object "redirect_uri:https://e.example/") = []
  /\ snd (ex_run (Some "redirect_uri:https://e.example/") (ex_object "redirect_uri:https://e.example/")) = Err "response_uri must match client_id"
  /\ snd (ex_run (Some "redirect_uri:https://v.example/resp") (ex_object "redirect_uri:https://v.example/resp")) = Ok None.
Proof. exact c68_bound_ex. Qed.

(** C68: it never reports success without having POSTed. *)
Theorem c68_success :
  forall (url_parse : string -> option url) (ssi_header : obj -> option bool) (uri_ok : string -> bool)
    (jwk_ok : obj -> bool) (jwe_encrypt : obj -> obj -> obj -> res string) (lower sign : string -> string) (now : Z)
    (http : http_client) (endpoint : url) (store : list credential) (auto_consent : bool) (p : params) (x : option string),
    let run := authorize url_parse ssi_header uri_ok jwk_ok jwe_encrypt lower sign now http endpoint store auto_consent p in
    snd run = Ok x ->
    auto_consent = true
    /\ exists r rs, posts (http_events (fst run)) = [r] /\ http r = Ok rs /\ (200 <= rs_status rs < 300)%N.
Proof. exact c68_success_pf. Qed.
Print Assumptions c68_success.

Example c68_success_witness :
  snd (ex_run (Some "redirect_uri:https://v.example/resp") (ex_object "redirect_uri:https://v.example/resp")) = Ok None.
Proof. exact c68_success_ex. Qed.

(** C68: nothing of the kind holds for the other prefixes: a request naming an x509_san_dns client, with an
    outer client_id of somebody else, is answered whatever its signature. *)
Theorem c68_unverified_refuted :
  exists (outer inner uri : string) (o : obj),
    text_at "client_id" o inner /\ inner = "x509_san_dns:bank.example" /\ outer <> inner
    /\ ex_posted (Some outer) o = [uri] /\ snd (ex_run (Some outer) o) = Ok None.
Proof. exact c68_unverified_refuted_pf. Qed.
Print Assumptions c68_unverified_refuted.

(** C73: the encrypted answer of the example wallet: to the first usable key of the client's metadata, holding
    exactly the token and the state, always with A128GCM. *)
Theorem c73_encryption :
  forall (jwk_ok : obj -> bool) (jwe_encrypt : obj -> obj -> obj -> res string)
         (a : aro) (vp : vp_token) (st : option string) (jwe : string),
    parsed_key (aro_to_obj a) -> NoDup (map fst vp) ->
    (encrypted_answer jwk_ok jwe_encrypt a vp st = Ok jwe <->
     exists cm keys key kid header claims,
       obj_get "client_metadata" (aro_to_obj a) = Some (JObj cm) /\ client_keys cm keys
       /\ first_key keys key /\ jwk_ok key = true /\ maybe_text "kid" key kid
       /\ object_is header (jwe_members "A128GCM" kid) /\ claims_of claims vp st
       /\ jwe_encrypt header claims key = Ok jwe).
Proof. exact c73_encryption_pf. Qed.
Print Assumptions c73_encryption.

Example c73_encryption_witness :
  parsed_key (enc_request [] [key_p256 "enc" "2"])
  /\ ex_encrypted [] = Ok "[{""alg"":""ECDH-ES"",""enc"":""A128GCM"",""kid"":""2"",""typ"":""JWT""},{""state"":""s"",""vp_token"":{""a"":[""x""]}}]".
Proof. exact c73_encryption_ex. Qed.

(** C73: so a client whose metadata lists A256GCM alone gets an answer in A128GCM, which it did not offer. *)
Theorem c73_unlisted_refuted :
  exists (a : aro) (cm header claims key : obj) (vp : vp_token),
    client_metadata (aro_to_obj a) cm /\ client_encs cm ["A256GCM"]
    /\ text_at "enc" header "A128GCM"
    /\ encrypted_answer (fun _ => true) (fun h c k => Ok (jprint (JArr [JObj h; JObj c; JObj k]))) a vp None
       = Ok (jprint (JArr [JObj header; JObj claims; JObj key])).
Proof. exact c73_unlisted_refuted_pf. Qed.
Print Assumptions c73_unlisted_refuted.

(** C75: a request given directly by its parameters is never answered by the example wallet: it ends in an error
    without any HTTP traffic. *)
Theorem c75_direct :
  forall (url_parse : string -> option url) (ssi_header : obj -> option bool) (uri_ok : string -> bool)
    (jwk_ok : obj -> bool) (jwe_encrypt : obj -> obj -> obj -> res string) (lower sign : string -> string) (now : Z)
    (http : http_client) (endpoint : url) (store : list credential) (auto_consent : bool) (p : params)
    (ar : auth_request) (o : obj),
    from_url url_parse (build_request_url endpoint p) endpoint = Ok ar -> ar_indirection ar = Direct o ->
    let run := authorize url_parse ssi_header uri_ok jwk_ok jwe_encrypt lower sign now http endpoint store auto_consent p in
    fst run = [] /\ forall x, snd run <> Ok x.
Proof. exact c75_direct_pf. Qed.
Print Assumptions c75_direct.

Example c75_direct_witness :
  is_ok (from_url simple_parse (build_request_url ex_endpoint ex_direct) ex_endpoint) = true
  /\ snd (authorize simple_parse any_header (fun _ => true) (fun _ => true) (fun h c k => Err "") (fun s => s) (fun _ => "S") 5
            (serve 200 "{}") ex_endpoint [pid] true ex_direct) = Err "Invalid dcql_query"
  /\ forallb (fun kv => utf8_valid (snd kv)) (param_pairs ex_direct) = true.
Proof. exact c75_direct_ex. Qed.

(** C75: in particular whenever neither request nor request_uri is given to an endpoint without a query. *)
Theorem c75_no_request :
  forall (url_parse : string -> option url) (ssi_header : obj -> option bool) (uri_ok : string -> bool)
    (jwk_ok : obj -> bool) (jwe_encrypt : obj -> obj -> obj -> res string) (lower sign : string -> string) (now : Z)
    (http : http_client) (endpoint : url) (store : list credential) (auto_consent : bool) (p : params),
    u_query endpoint = None -> pa_request p = None -> pa_request_uri p = None ->
    (forall k v, In (k, v) (param_pairs p) -> utf8_valid v = true) ->
    let run := authorize url_parse ssi_header uri_ok jwk_ok jwe_encrypt lower sign now http endpoint store auto_consent p in
    fst run = [] /\ forall x, snd run <> Ok x.
Proof. exact c75_no_request_pf. Qed.
Print Assumptions c75_no_request.

Example c75_no_request_witness :
  let p := mk_params (Some "x509_san_dns:v.example") None None (Some "vp_token") None None None (Some "n") None in
  u_query ex_endpoint = None /\ forallb (fun kv => utf8_valid (snd kv)) (param_pairs p) = true /\ param_pairs p <> [].
Proof. exact c75_no_request_ex. Qed.

(** C74: what the example wallet POSTs: a token whose presentations are all made, for the nonce and the client of
    the request, from stored credentials that satisfy the credential query they are filed under; every credential
    query is answered; the state is the request's, else the one of the parameters. It is sent as a form, in
    direct_post.jwt encrypted. *)
Theorem c74_contents :
  forall (url_parse : string -> option url) (ssi_header : obj -> option bool) (uri_ok : string -> bool)
    (jwk_ok : obj -> bool) (jwe_encrypt : obj -> obj -> obj -> res string) (lower sign : string -> string) (now : Z)
    (http : http_client) (endpoint : url) (store : list credential) (auto_consent : bool) (p : params) (r : http_req),
    let run := authorize url_parse ssi_header uri_ok jwk_ok jwe_encrypt lower sign now http endpoint store auto_consent p in
    clock_ok now -> In r (posts (http_events (fst run))) ->
    exists ar a jwt q vp st nonce aud,
      from_url url_parse (build_request_url endpoint p) endpoint = Ok ar
      /\ snd (resolve_request url_parse ssi_header uri_ok http ar) = Ok (a, Some jwt)
      /\ aro_dcql a = Some (Ok q)
      /\ text_at "nonce" (aro_to_obj a) nonce /\ audience_of (aro_to_obj a) aud
      /\ NoDup (map fst vp)
      /\ (forall id items i, In (id, items) vp -> In i items ->
            exists cq c, In cq (dq_credentials q) /\ cq_id cq = id /\ In c store /\ satisfies lower cq c
              /\ presented sign now nonce aud (mc_raw c) i)
      /\ (forall cq, In cq (dq_credentials q) ->
            exists items i c, In (cq_id cq, items) vp /\ In i items /\ In c store /\ satisfies lower cq c
              /\ presented sign now nonce aud (mc_raw c) i)
      /\ (forall s, text_at "state" (aro_to_obj a) s -> st = Some s)
      /\ ((forall s, ~ text_at "state" (aro_to_obj a) s) -> st = pa_state p)
      /\ (ro_mode a = DirectPost /\ rq_body r = unencoded_form (mk_unencoded vp st)
          \/ ro_mode a = DirectPostJwt
             /\ exists header claims key jwe, claims_of claims vp st /\ jwe_encrypt header claims key = Ok jwe
                /\ rq_body r = form_serialize [("response", jwe)]).
Proof. exact c74_contents_pf. Qed.
Print Assumptions c74_contents.

Example c74_contents_witness :
  map rq_body (posts (http_events (fst (ex_run None (obj_insert "state" (JStr "s") (ex_object "x509_san_dns:v.example"))))))
  = [unencoded_form (mk_unencoded [("a", [VpString ("iss~disc~" +:+ key_binding_jwt (fun _ => "S") 5 "iss~disc~" "n1" "x509_san_dns:v.example")])] (Some "s"))].
Proof. exact c74_contents_ex. Qed.

(** C74: without the consent of its user, the example wallet answers no request: it POSTs nothing, to anyone, and
    reports no success. *)
Theorem c74_consent :
  forall (url_parse : string -> option url) (ssi_header : obj -> option bool) (uri_ok : string -> bool)
    (jwk_ok : obj -> bool) (jwe_encrypt : obj -> obj -> obj -> res string) (lower sign : string -> string) (now : Z)
    (http : http_client) (endpoint : url) (store : list credential) (p : params) (out : option string),
    let run := authorize url_parse ssi_header uri_ok jwk_ok jwe_encrypt lower sign now http endpoint store false p in
    posts (http_events (fst run)) = [] /\ snd run <> Ok out.
Proof. exact c74_consent_pf. Qed.
Print Assumptions c74_consent.

Example c74_consent_witness :
  posts (http_events (fst (ex_run None (ex_object "x509_san_dns:v.example")))) <> []
  /\ snd (authorize simple_parse any_header (fun _ => true) (fun _ => true) (fun h c k => Ok (jprint (JArr [JObj h; JObj c])))
           (fun s => s) (fun _ => "S") 5 (serve 200 "{}") ex_endpoint [pid] false (ex_params None (ex_object "x509_san_dns:v.example")))
     = Err "user declined".
Proof. exact c74_consent_ex. Qed.
