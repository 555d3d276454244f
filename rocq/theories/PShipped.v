(** The example wallet as it is shipped (C104) *)
From Coq Require Import Lia.
From Verif Require Import Base BaseFacts Utf8 Json JsonFacts JsonText Base64 Base64Facts Sha256 Serde Url UrlEncoded Object Formats Params
  Metadata Dcql Effects Jwt Request Response Jwe ExMatcher ExWallet ExMetadata ExHttp ExShipped SpecRequest PfRequest PfResolve SpecDcql PfDcql
  SpecJwe SpecResponse SpecEncodings PfEncodings SpecExample PfExample SpecHttp PfHttp SpecShipped.
From Verif Require Import PfShipped.

(** C104: a credential file is read as exactly the credentials that its entries describe, in their order; if it is no such file, or
    an entry describes none, the program stops. *)
Theorem c104_load :
  forall (s : string) (cs : list credential),
    store_of_text s = Ok cs <-> exists l, entries_are s l /\ Forall2 describes l cs.
Proof. exact c104_load_pf. Qed.
Print Assumptions c104_load.

Example c104_load_witness :
  (exists l, entries_are shipped_text l /\ store_of_text shipped_text = Ok [shipped_credential])
  /\ store_of_text "[[[""a"", ""mso_mdoc"", null, ""d"", ""r"", {}]]]" = Ok [mk_credential "a" MsoMDoc None (Some "d") "r" []]
  /\ (forall cs, store_of_text "{""credentials"": [], ""credentials"": []}" <> Ok cs) /\ forall cs, store_of_text "{}" <> Ok cs.
Proof. exact c104_load_ex. Qed.

(** C104: without a public URL the wallet announces the host and port it listens on; the authorization endpoint is the path "/authorize" behind it. *)
Theorem c104_config :
  forall (url_parse : string -> option url) (public_url : option string) (host port : string) (no_auto_consent : bool) (cf : config),
    configure url_parse public_url host port no_auto_consent = Ok cf
    <-> exists base, (public_url = Some base \/ public_url = None /\ base = "http://" +:+ host +:+ ":" +:+ port)
          /\ url_parse base = Some (cf_public cf) /\ url_parse (base +:+ "/authorize") = Some (cf_endpoint cf)
          /\ (cf_consent cf = true <-> no_auto_consent = false).
Proof. exact c104_config_pf. Qed.
Print Assumptions c104_config.

Example c104_config_witness :
  (exists cf, configure simple_parse None "0.0.0.0" "3000" false = Ok cf /\ url_str (cf_public cf) = "http://0.0.0.0:3000"
     /\ url_str (cf_endpoint cf) = "http://0.0.0.0:3000/authorize")
  /\ configure simple_parse (Some "no url") "0.0.0.0" "3000" false = Err "invalid URL".
Proof. exact c104_config_ex. Qed.

(** C104: whatever claims are asked for, every presentation that the example wallet sends carries all the disclosures of
    the credential. *)
Theorem c104_discloses :
  forall (url_parse : string -> option url) (ssi_header : obj -> option bool) (uri_ok : string -> bool)
    (jwk_ok : obj -> bool) (jwe_encrypt : obj -> obj -> obj -> res string) (lower sign : string -> string) (now : Z)
    (http : http_client) (endpoint : url) (store : list credential) (auto_consent : bool) (p : params) (r : http_req),
    let run := authorize url_parse ssi_header uri_ok jwk_ok jwe_encrypt lower sign now http endpoint store auto_consent p in
    clock_ok now -> In r (posts (http_events (fst run))) ->
    exists vp st, vp <> []
      /\ (rq_body r = unencoded_form (mk_unencoded vp st)
          \/ exists header claims key jwe, claims_of claims vp st /\ jwe_encrypt header claims key = Ok jwe
               /\ rq_body r = form_serialize [("response", jwe)])
      /\ forall id items i, In (id, items) vp -> In i items ->
           exists c t, In c store /\ i = VpString t /\ disclosures t = disclosures (mc_raw c).
Proof. exact c104_discloses_pf. Qed.
Print Assumptions c104_discloses.

Example c104_discloses_witness :
  clock_ok 5 /\ length (posts (http_events (fst (ex_run None (ex_object "x509_san_dns:v.example"))))) = 1
  /\ disclosures (mc_raw pid) = ["disc"].
Proof. exact c104_discloses_ex. Qed.

(** C104: the wallet as shipped denies a readable request exactly if it was started without consent or some credential
    query is not for its one credential. *)
Theorem c104_answers :
  forall (url_parse : string -> option url) (ssi_header : obj -> option bool) (uri_ok : string -> bool)
    (jwk_ok : obj -> bool) (jwe_encrypt : obj -> obj -> obj -> res string) (lower sign : string -> string) (now : Z)
    (http : http_client) (describe : string -> string) (reason : N -> string) (p : params)
    (public_url : option string) (host port : string) (no_auto_consent : bool) (cf : config),
    configure url_parse public_url host port no_auto_consent = Ok cf ->
    ((exists state, error_page "access_denied" state
       (snd (process url_parse ssi_header uri_ok jwk_ok jwe_encrypt lower sign now http (cf_endpoint cf) shipped_store (cf_consent cf)
               describe reason p)))
     <-> exists ar a jwt d, from_url url_parse (build_request_url (cf_endpoint cf) p) (cf_endpoint cf) = Ok ar
           /\ snd (resolve_request url_parse ssi_header uri_ok http ar) = Ok (a, jwt)
           /\ aro_dcql a = Some (Ok d)
           /\ ~ (no_auto_consent = false /\ forall cq, In cq (dq_credentials d) -> asks_shipped cq)).
Proof. exact c104_answers_pf. Qed.
Print Assumptions c104_answers.

Example c104_answers_witness :
  (exists cf, configure simple_parse (Some "https://wallet.example") "0.0.0.0" "3000" false = Ok cf /\ cf_endpoint cf = ex_endpoint /\ cf_consent cf = true)
  /\ hr_status (snd (shipped_run (shipped_query ["given_name"]))) = 200%N
  /\ snd (shipped_run (dcql_new [pid_query "a" "urn:pid" "given_name"])) = error_reply 400 "access_denied" "no matching credential" None.
Proof. exact c104_answers_ex. Qed.

(** C104: started without consent, it presents nothing to anybody. *)
Theorem c104_consent :
  forall (url_parse : string -> option url) (ssi_header : obj -> option bool) (uri_ok : string -> bool)
    (jwk_ok : obj -> bool) (jwe_encrypt : obj -> obj -> obj -> res string) (lower sign : string -> string) (now : Z)
    (http : http_client) (describe : string -> string) (reason : N -> string) (point : string * string)
    (public_url : option string) (host port : string) (cf : config) (cut : option nat) (q : hrequest),
    configure url_parse public_url host port true = Ok cf ->
    posts (http_events (fst (serve_http url_parse ssi_header uri_ok jwk_ok jwe_encrypt lower sign now http (cf_endpoint cf)
                               shipped_store (cf_consent cf) describe reason (cf_public cf) point cut q))) = [].
Proof. exact c104_consent_pf. Qed.
Print Assumptions c104_consent.

Example c104_consent_witness :
  exists cf, configure simple_parse None "0.0.0.0" "3000" true = Ok cf /\ url_str (cf_endpoint cf) = "http://0.0.0.0:3000/authorize".
Proof. exact c104_consent_ex. Qed.

(** C104: the claims by which the shipped wallet chooses its credential are, name and value, exactly those that the disclosures of the
    credential reveal. *)
Theorem c104_claims :
  forall (c : credential) (name : string) (v : json),
    In c shipped_store ->
    (In (name, v) (mc_claims c) <-> exists d, In d (disclosures (mc_raw c)) /\ reveals_value d name v).
Proof. exact c104_claims_pf. Qed.
Print Assumptions c104_claims.

Example c104_claims_witness : exists c, In c shipped_store /\ In ("age_over_18", JBool true) (mc_claims c).
Proof. exact c104_claims_ex. Qed.

(** C104: every presentation of the shipped wallet reveals all four claims of its credential. *)
Theorem c104_reveals :
  forall (url_parse : string -> option url) (ssi_header : obj -> option bool) (uri_ok : string -> bool)
    (jwk_ok : obj -> bool) (jwe_encrypt : obj -> obj -> obj -> res string) (lower sign : string -> string) (now : Z)
    (http : http_client) (endpoint : url) (auto_consent : bool) (p : params) (r : http_req),
    let run := authorize url_parse ssi_header uri_ok jwk_ok jwe_encrypt lower sign now http endpoint shipped_store auto_consent p in
    clock_ok now -> In r (posts (http_events (fst run))) ->
    exists vp st, vp <> []
      /\ (rq_body r = unencoded_form (mk_unencoded vp st)
          \/ exists header claims key jwe, claims_of claims vp st /\ jwe_encrypt header claims key = Ok jwe
               /\ rq_body r = form_serialize [("response", jwe)])
      /\ forall id items i, In (id, items) vp -> In i items -> exists t, i = VpString t /\ Forall2 reveals (disclosures t) shipped_claims.
Proof. exact c104_reveals_pf. Qed.
Print Assumptions c104_reveals.

Example c104_reveals_witness :
  map rq_uri (posts (http_events (fst (shipped_run (shipped_query ["given_name"]))))) = ["https://v.example/resp"].
Proof. exact c104_reveals_ex. Qed.

(** C104: so it does not hold that only the claims asked for are revealed. *)
Theorem c104_minimal_refuted :
  exists (q : dcql) (id t : string) (st : option string) (d : string),
    (forall cq n, In cq (dq_credentials q) -> requires_claim cq n -> n = "given_name")
    /\ map rq_body (posts (http_events (fst (shipped_run q)))) = [unencoded_form (mk_unencoded [(id, [VpString t])] st)]
    /\ In d (disclosures t) /\ reveals d "family_name".
Proof. exact c104_minimal_refuted_pf. Qed.
Print Assumptions c104_minimal_refuted.

(** C104: nor that the authorization endpoint which the wallet announces is one that it serves: a public URL that ends in
    a slash leads to a path without a route. *)
Theorem c104_endpoint_refuted :
  exists (public : string) (cf : config),
    configure simple_parse (Some public) "0.0.0.0" "3000" false = Ok cf
    /\ url_str (cf_endpoint cf) = public +:+ "/authorize"
    /\ (exists w, wm_of_json simple_parse (served_metadata simple_parse (cf_endpoint cf)) = Ok w /\ wm_endpoint w = cf_endpoint cf)
    /\ forall query, serve_http simple_parse any_header (fun _ => true) (fun _ => true) (fun h c k => Ok "") (fun s => s) (fun _ => "S") 5
         (serve 200 "{}") (cf_endpoint cf) shipped_store (cf_consent cf) (fun e => e) (fun _ => "") (cf_public cf) ("X", "Y") None
         (mk_hrequest "GET" (u_path (cf_endpoint cf)) query None "") = ([], mk_hreply 404 None).
Proof. exact c104_endpoint_refuted_pf. Qed.
Print Assumptions c104_endpoint_refuted.
