(** What an encrypted answer shows on the network (C132) *)
From Coq Require Import Lia ZArith.
From Verif Require Import Base BaseFacts Utf8 Utf8Facts Json JsonFacts JsonText JsonTextFacts Base64 Base64Facts Sha256 Serde Url UrlEncoded UrlEncodedFacts
  Object Formats Params Metadata Dcql Effects Jwt Request Response Session X509 SpecCert CertFacts Client Builder Server Jwe ExMatcher ExWallet ExVerifier.
From Verif Require Import Verify Wallet SpecWallet PfWallet MapFacts Spec SpecObject SpecRequest PfRequest PfResolve SpecResponse PfResponse SpecJwe PfJwe SpecBuilder SpecSession StoreFacts
  PfBuilder UuidFacts PfSession PfServer PfClient SpecExample PfExample PfInterop ExWeb SpecHttp PfHttp.
From Verif Require Import PfSealed.

(** C132: what an encrypted answer shows on the network: for a request that asks for an encrypted answer there are a JWE header and a key such that,
    whatever two wallets hold, sign with and take for the time, all their traffic (every request with its address, headers and body, in order)
    is the same, and if they answer also the outcome, unless only one of them answers or someone has told two JWEs made with that header
    and key apart. The network and the verifier may react to what they see as they like. *)
Theorem c132_example :
  forall (url_parse : string -> option url) (ssi_header : obj -> option bool) (uri_ok : string -> bool)
    (jwk_ok : obj -> bool) (jwe_encrypt : obj -> obj -> obj -> res string) (lower : string -> string)
    (http : http_client) (endpoint : url) (p : params) (ar : auth_request) (a : aro) (jwt : option string),
    from_url url_parse (build_request_url endpoint p) endpoint = Ok ar ->
    snd (resolve_request url_parse ssi_header uri_ok http ar) = Ok (a, jwt) ->
    ro_mode a = DirectPostJwt ->
    exists header key, forall (sign sign' : string -> string) (now now' : Z) (store store' : list credential) (auto auto' : bool),
      let run := authorize url_parse ssi_header uri_ok jwk_ok jwe_encrypt lower sign now http endpoint store auto p in
      let run' := authorize url_parse ssi_header uri_ok jwk_ok jwe_encrypt lower sign' now' http endpoint store' auto' p in
      (fst run = fst run' /\ (posts (http_events (fst run)) <> [] -> run = run'))
      \/ (posts (http_events (fst run)) = [] <-> posts (http_events (fst run')) <> [])
      \/ exists vp vp' state claims claims', claims_of claims vp state /\ claims_of claims' vp' state
           /\ jwe_encrypt header claims key <> jwe_encrypt header claims' key.
Proof. exact c132_example_pf. Qed.
Print Assumptions c132_example.

Example c132_example_witness :
  s_mode = Some DirectPostJwt
  /\ s_run s_hiding "direct_post.jwt" [pid] = (["response=JWE"], Ok None) /\ s_run s_hiding "direct_post.jwt" [pid'; pid] = (["response=JWE"], Ok None)
  /\ s_run s_hiding "direct_post.jwt" [] = ([], Err "no matching credential")
  /\ forallb2_str (fst (s_run s_open "direct_post.jwt" [pid])) (fst (s_run s_open "direct_post.jwt" [pid'])) = false.
Proof. exact c132_example_ex. Qed.

(** C132: and so for a wallet made with the library: for every request object there are a header and a key such that any two answers encrypted and
    submitted by the library make the same traffic, with the same result, unless someone has told two JWEs made with them apart. *)
Theorem c132_library :
  forall (url_parse : string -> option url) (uri_ok : string -> bool) (jwk_ok : obj -> bool) (jwe_encrypt : obj -> obj -> obj -> res string)
    (http : http_client) (a : aro),
    exists header key, forall (vp vp' : vp_token) (state state' : option string), NoDup (map fst vp) -> NoDup (map fst vp') ->
      let run t s := match build_encrypted_response jwk_ok jwe_encrypt a t s with
                     | Ok r => submit_response url_parse uri_ok http a r
                     | Err e => ([], Err e)
                     end in
      run vp state = run vp' state'
      \/ exists claims claims', claims_of claims vp state /\ claims_of claims' vp' state'
           /\ jwe_encrypt header claims key <> jwe_encrypt header claims' key.
Proof. exact c132_library_pf. Qed.
Print Assumptions c132_library.

Example c132_library_witness :
  s_lib s_hiding [("a", [VpString "x"])] = Ok ["response=JWE"] /\ s_lib s_hiding [("a", [VpString "y"]); ("b", [])] = Ok ["response=JWE"]
  /\ match s_lib s_open [("a", [VpString "x"])], s_lib s_open [("a", [VpString "y"])] with Ok l, Ok l' => forallb2_str l l' | _, _ => true end = false.
Proof. exact c132_library_ex. Qed.

(** C132: wallets whose credentials look alike from outside always do the same, answering or not, but for such JWEs. *)
Theorem c132_alike :
  forall (url_parse : string -> option url) (ssi_header : obj -> option bool) (uri_ok : string -> bool)
    (jwk_ok : obj -> bool) (jwe_encrypt : obj -> obj -> obj -> res string) (lower : string -> string)
    (http : http_client) (endpoint : url) (p : params) (ar : auth_request) (a : aro) (jwt : option string) (auto : bool),
    from_url url_parse (build_request_url endpoint p) endpoint = Ok ar ->
    snd (resolve_request url_parse ssi_header uri_ok http ar) = Ok (a, jwt) ->
    ro_mode a = DirectPostJwt ->
    exists header key, forall (sign sign' : string -> string) (now now' : Z) (store store' : list credential),
      Forall2 same_outside store store' ->
      authorize url_parse ssi_header uri_ok jwk_ok jwe_encrypt lower sign now http endpoint store auto p
      = authorize url_parse ssi_header uri_ok jwk_ok jwe_encrypt lower sign' now' http endpoint store' auto p
      \/ exists vp vp' state claims claims', claims_of claims vp state /\ claims_of claims' vp' state
           /\ jwe_encrypt header claims key <> jwe_encrypt header claims' key.
Proof. exact c132_alike_pf. Qed.
Print Assumptions c132_alike.

Example c132_alike_witness :
  Forall2 same_outside [pid] [pid'] /\ s_mode = Some DirectPostJwt
  /\ forallb2_str (fst (s_run s_hiding "direct_post.jwt" [pid])) (fst (s_run s_hiding "direct_post.jwt" [pid'])) = true.
Proof. exact c132_alike_ex. Qed.

(** C132: none of this holds for requests that ask for a plain answer, which anyone may ask for: then what is sent differs although nothing
    is encrypted and so nothing has been told apart. *)
Theorem c132_plain_refuted :
  exists (url_parse : string -> option url) (ssi_header : obj -> option bool) (uri_ok : string -> bool)
    (jwk_ok : obj -> bool) (jwe_encrypt : obj -> obj -> obj -> res string) (lower sign : string -> string) (now : Z)
    (http : http_client) (endpoint : url) (p : params) (store store' : list credential),
    Forall2 same_outside store store' /\ (forall h c c' k, jwe_encrypt h c k = jwe_encrypt h c' k)
    /\ fst (authorize url_parse ssi_header uri_ok jwk_ok jwe_encrypt lower sign now http endpoint store true p)
       <> fst (authorize url_parse ssi_header uri_ok jwk_ok jwe_encrypt lower sign now http endpoint store' true p).
Proof. exact c132_plain_refuted_pf. Qed.
Print Assumptions c132_plain_refuted.
