(** Holding more never answers less (C134) *)
From Coq Require Import Lia ZArith Permutation.
From Verif Require Import Base BaseFacts Utf8 Utf8Facts Json JsonFacts JsonText JsonTextFacts Base64 Base64Facts Sha256 Serde Url UrlEncoded UrlEncodedFacts
  Object Formats Params Metadata Dcql Effects Jwt Request Response Session X509 SpecCert CertFacts Client Builder Server Jwe ExMatcher ExWallet ExVerifier.
From Verif Require Import Verify Wallet SpecWallet PfWallet MapFacts Spec SpecObject SpecRequest PfRequest PfResolve SpecResponse PfResponse SpecJwe PfJwe SpecBuilder SpecSession StoreFacts
  PfBuilder UuidFacts PfSession PfServer PfClient SpecExample PfExample PfInterop SpecHttp PfHttp PfSealed.
From Verif Require Import PfHolding.

(** C134: holding more never answers less: what is selected from some credentials is also selected when there are more behind them. *)
Theorem c134_more :
  forall (lower : string -> string) (store more : list credential) (q : dcql) (sel : selection),
    match_query lower store q = Ok sel -> match_query lower (store ++ more) q = Ok sel.
Proof. exact c134_more_pf. Qed.
Print Assumptions c134_more.

Example c134_more_witness :
  match_query (fun s => s) [pid] (dcql_new [pid_query "a" "urn:pid" "given_name"]) = Ok [("a", ["iss~disc~kb"])]
  /\ match_query (fun s => s) ([pid] ++ [pid']) (dcql_new [pid_query "a" "urn:pid" "given_name"]) = Ok [("a", ["iss~disc~kb"])]
  /\ match_query (fun s => s) [pid'; pid] (dcql_new [pid_query "a" "urn:pid" "given_name"]) = Ok [("a", ["other~disc~kb"])].
Proof. exact c134_more_ex. Qed.

(** C134: so the whole conduct of a wallet that answers is unchanged by credentials added behind those it has. *)
Theorem c134_wallet :
  forall (url_parse : string -> option url) (ssi_header : obj -> option bool) (uri_ok : string -> bool)
    (jwk_ok : obj -> bool) (jwe_encrypt : obj -> obj -> obj -> res string) (lower sign : string -> string) (now : Z)
    (http : http_client) (endpoint : url) (store more : list credential) (auto : bool) (p : params),
    let run s := authorize url_parse ssi_header uri_ok jwk_ok jwe_encrypt lower sign now http endpoint s auto p in
    posts (http_events (fst (run store))) <> [] -> run (store ++ more) = run store.
Proof. exact c134_wallet_pf. Qed.
Print Assumptions c134_wallet.

Example c134_wallet_witness :
  s_run s_hiding "direct_post" [pid] = s_run s_hiding "direct_post" ([pid] ++ [pid'])
  /\ (1 =? length (fst (s_run s_hiding "direct_post" [pid])))%nat = true.
Proof. exact c134_wallet_ex. Qed.

(** C134: whether a wallet answers depends on which credentials it holds, not on their order or on how many there are besides: with a
    superset, in any order, it answers too, and to the same address. *)
Theorem c134_superset :
  forall (url_parse : string -> option url) (ssi_header : obj -> option bool) (uri_ok : string -> bool)
    (jwk_ok : obj -> bool) (jwe_encrypt : obj -> obj -> obj -> res string) (lower sign : string -> string) (now : Z)
    (http : http_client) (endpoint : url) (store store' : list credential) (auto : bool) (p : params),
    uniform jwe_encrypt -> incl store store' ->
    let run s := authorize url_parse ssi_header uri_ok jwk_ok jwe_encrypt lower sign now http endpoint s auto p in
    posts (http_events (fst (run store))) <> [] ->
    map rq_uri (posts (http_events (fst (run store')))) = map rq_uri (posts (http_events (fst (run store)))).
Proof. exact c134_superset_pf. Qed.
Print Assumptions c134_superset.

Example c134_superset_witness :
  incl [pid] [pid'; pid] /\ uniform s_hiding /\ (1 =? length (fst (s_run s_hiding "direct_post" [pid'; pid])))%nat = true.
Proof. exact c134_superset_ex. Qed.

(** C134: asking for fewer credentials never gets refused more: whoever can answer a query can answer each part of it. *)
Theorem c134_fewer :
  forall (lower : string -> string) (store : list credential) (q q' : dcql),
    incl (dq_credentials q') (dq_credentials q) -> dq_credentials q' <> [] ->
    (exists sel, match_query lower store q = Ok sel) -> exists sel, match_query lower store q' = Ok sel.
Proof. exact c134_fewer_pf. Qed.
Print Assumptions c134_fewer.

Example c134_fewer_witness :
  is_ok (match_query (fun s => s) [pid] (dcql_new [pid_query "a" "urn:pid" "given_name"; pid_query "b" "urn:pid" "given_name"])) = true.
Proof. exact c134_fewer_ex. Qed.

(** C134: but within one credential query, asking for less can get refused: the same query without its list of types, asking for nothing else
    that it did not ask for before, is refused by a wallet that answers the longer one. *)
Theorem c134_restrict_refuted :
  exists (store : list credential) (cq cq' : cred_query),
    cq_id cq' = cq_id cq /\ cq_format cq' = cq_format cq /\ cq_claims cq' = cq_claims cq /\ cq_meta cq' = [] /\ lists_types cq
    /\ is_ok (match_query (fun s => s) store (dcql_new [cq])) = true
    /\ match_query (fun s => s) store (dcql_new [cq']) = Err "no matching credential".
Proof. exact c134_restrict_refuted_pf. Qed.
Print Assumptions c134_restrict_refuted.

(** C134: which credentials are given: for each id, those chosen for the credential queries with this id, in the order of the queries, where each
    query gets the first credential in the store that satisfies it. *)
Theorem c134_first :
  forall (lower : string -> string) (store : list credential) (q : dcql) (sel : selection) (chosen : cred_query -> credential),
    match_query lower store q = Ok sel ->
    (forall cq, In cq (dq_credentials q) ->
       exists before after, store = before ++ chosen cq :: after /\ satisfies lower cq (chosen cq) /\ forall c, In c before -> ~ satisfies lower cq c) ->
    forall id raws, In (id, raws) sel <->
      raws <> [] /\ map (fun cq => mc_raw (chosen cq)) (filter (fun cq => String.eqb (cq_id cq) id) (dq_credentials q)) = raws.
Proof. exact c134_first_pf. Qed.
Print Assumptions c134_first.

Example c134_first_witness :
  match_query (fun s => s) [pid'; pid] (dcql_new [pid_query "a" "urn:pid" "given_name"; pid_query "a" "urn:pid" "age"]) = Ok [("a", ["other~disc~kb"; "other~disc~kb"])]
  /\ [pid'; pid] = [] ++ pid' :: [pid] /\ satisfies (fun s => s) (pid_query "a" "urn:pid" "given_name") pid'.
Proof. exact c134_first_ex. Qed.
