(** What a wallet and a verifier agree on, whatever happens between them (C117) *)
From Coq Require Import Lia.
From Verif Require Import Base BaseFacts Utf8 Json JsonFacts JsonText Base64 Base64Facts Sha256 Url Object Params Metadata Dcql Effects Jwt Request Verify Did X509
  SpecCert CertFacts Client Response Session Builder Wallet Jwe Server AnyStore.
From Verif Require Import SpecObject SpecRequest SpecVerify SpecResponse SpecWallet SpecJwe SpecBuilder SpecStore SpecAgree StoreFacts ParamFacts PfRequest PfResolve PfVerify PfDid PfX509
  PfClient PfWallet PfJwe PfBuilder PfServer PfAnyStore PfFlow.
From Verif Require Import PfAgree.

(** C117: whatever the network and anyone else do, and whatever the store of the verifier does: a request that a wallet
    validates for the x509_hash client identifier of a certificate is the request object of a session that the verifier
    made, unless the JWT the wallet was given has a forged signature under the key of that certificate, or brings another
    certificate with the same SHA-256 hash. *)
Theorem c117_x509_hash :
  forall (url_parse : string -> option url) (S : Type) (st : session_store S) (m0 : S) (y : any_sys S)
    (ssi_header : obj -> option bool) (uri_ok : string -> bool)
    (cert_of_der : string -> option cert) (vkey root : Type) (from_spki : string -> string -> option vkey)
    (verifies : vkey -> string -> string -> bool) (roots : option (list root)) (w : wallet) (r : auth_request) (a : aro) (der : string) (c : cert),
    (* the verifier *)
    any_reachable url_parse S st m0 y -> legible ssi_header (an_log y) -> cert_of_der der = Some c ->
    (* the wallet *)
    (forall a jwt, w_hook w HX509Hash a jwt = Ok tt -> exists j, jwt = Some j
       /\ x509_hash_validate cert_of_der from_spki verifies (w_metadata w) a j roots = Ok tt) ->
    snd (validate url_parse ssi_header uri_ok w r) = Ok a ->
    text_at "client_id" (aro_to_obj a) ("x509_hash:" +:+ b64url_encode (sha256 der)) ->
    (exists b s, agreed (an_log y) b s a)
    \/ exists jwt, snd (resolve_request url_parse ssi_header uri_ok (w_http w) r) = Ok (a, Some jwt)
       /\ ((exists alg v, alg_supported (w_metadata w) alg /\ from_spki (c_spki c) alg = Some v /\ forged (an_log y) (verifies v) jwt)
           \/ exists h der', protected_header jwt h /\ first_certificate h der' /\ der' <> der /\ sha256 der' = sha256 der).
Proof. exact c117_x509_hash_pf. Qed.
Print Assumptions c117_x509_hash.

Example c117_x509_hash_witness : exists y b s a, any_reachable simple_parse _ journal [] y /\ legible any_header (an_log y) /\ made (an_log y) b s
  /\ option_map c_spki (toy_cert "K|v.example") = Some "K"
  /\ (forall a jwt, w_hook toy_wallet HX509Hash a jwt = Ok tt -> exists j, jwt = Some j
       /\ x509_hash_validate toy_cert (p256_from_spki Some) toy_verifies (w_metadata toy_wallet) a j (None : option (list nat)) = Ok tt)
  /\ snd (validate simple_parse any_header (fun _ => true) toy_wallet (mk_ar None (ByValue (s_jwt s)))) = Ok a
  /\ text_at "client_id" (aro_to_obj a) ("x509_hash:" +:+ b64url_encode (sha256 "K|v.example")).
Proof. exact c117_x509_hash_ex. Qed.

(** C117: the same for a DID client and a wallet that lists no algorithm containing "none": the request object is one that
    the verifier made, unless the JWT has a forged signature under a key of the DID. *)
Theorem c117_did :
  forall (url_parse : string -> option url) (S : Type) (st : session_store S) (m0 : S) (y : any_sys S)
    (ssi_header : obj -> option bool) (uri_ok : string -> bool)
    (key : Type) (sig_ok : key -> string -> string -> string -> bool) (resolver : string -> res key)
    (trusted : option (list string)) (w : wallet) (r : auth_request) (a : aro) (did : string),
    any_reachable url_parse S st m0 y -> legible ssi_header (an_log y) ->
    (forall a jwt, w_hook w HDid a jwt = Ok tt -> exists j, jwt = Some j
       /\ verify_with_resolver ssi_header sig_ok resolver (w_metadata w) a j trusted = Ok tt) ->
    (forall alg, alg_supported (w_metadata w) alg -> ~ contains "none" alg) ->
    snd (validate url_parse ssi_header uri_ok w r) = Ok a ->
    text_at "client_id" (aro_to_obj a) ("decentralized_identifier:" +:+ did) ->
    (exists b s, agreed (an_log y) b s a)
    \/ exists jwt fragment alg k, snd (resolve_request url_parse ssi_header uri_ok (w_http w) r) = Ok (a, Some jwt)
       /\ alg_supported (w_metadata w) alg /\ resolver (did +:+ "#" +:+ fragment) = Ok k /\ forged (an_log y) (sig_ok k alg) jwt.
Proof. exact c117_did_pf. Qed.
Print Assumptions c117_did.

Example c117_did_witness : exists y b s a, any_reachable simple_parse _ journal [] y /\ legible any_header (an_log y) /\ made (an_log y) b s
  /\ (forall a jwt, w_hook toy_wallet HDid a jwt = Ok tt -> exists j, jwt = Some j
       /\ verify_with_resolver any_header toy_sig toy_resolver (w_metadata toy_wallet) a j None = Ok tt)
  /\ (forall alg, alg_supported (w_metadata toy_wallet) alg -> ~ contains "none" alg)
  /\ snd (validate simple_parse any_header (fun _ => true) toy_wallet (mk_ar None (ByValue (s_jwt s)))) = Ok a
  /\ text_at "client_id" (aro_to_obj a) ("decentralized_identifier:" +:+ "did:web:v.example").
Proof. exact c117_did_ex. Qed.

(** C117: a wallet that has agreed on a request sends its answer, if at all, to the verifier's response endpoint of that very
    session. *)
Theorem c117_answer :
  forall (url_parse : string -> option url) (uri_ok : string -> bool) (http : http_client)
    (l : list (nat * (call * event))) (b : request_builder) (s : session) (a : aro) (response : auth_response) (e : wevent),
    agreed l b s a -> aro_of_obj url_parse (aro_to_obj a) = Ok a ->
    In e (fst (submit_response url_parse uri_ok http a response)) ->
    exists r u body, extended (v_submission (rb_verifier b)) (uuid_str (s_uuid s)) r /\ url_parse (url_str r) = Some u
      /\ e = EHttp (form_post (url_str u) body).
Proof. exact c117_answer_pf. Qed.
Print Assumptions c117_answer.

Example c117_answer_witness : option_map (fun x => match x with Ok (_, sd, a) => (map (fun e => match e with EHttp q => rq_uri q | _ => "" end)
    (fst (submit_response simple_parse (fun _ => true) (fun _ => Err "") a (Unencoded (mk_unencoded [] None)))), s_uuid (fst sd)) | Err _ => ([], 0%N) end)
    (Some (meeting (x509_hash_client toy_der toy_chain (toy_signer "K")) ("x509_hash:" +:+ b64url_encode (sha256 "K|v.example"))))
  = Some (["https://v.example/submit/00000000-0000-0000-0000-000000000007"], 7%N).
Proof. exact c117_answer_ex. Qed.

(** C117: and when it encrypts its answer, it does so to the first usable key of the client metadata that the verifier's
    builder was given. *)
Theorem c117_secret :
  forall (jwk_ok : obj -> bool) (jwe_encrypt : obj -> obj -> obj -> res string)
    (l : list (nat * (call * event))) (b : request_builder) (s : session) (a : aro) (vp : vp_token) (state : option string) (response : auth_response),
    agreed l b s a -> parsed_key (aro_to_obj a) -> NoDup (map fst vp) ->
    build_encrypted_response jwk_ok jwe_encrypt a vp state = Ok response ->
    exists cm keys key header claims jwe, client_metadata (rb_params b) cm /\ client_keys cm keys /\ first_key keys key
      /\ claims_of claims vp state /\ jwe_encrypt header claims key = Ok jwe /\ response = Jwt jwe.
Proof. exact c117_secret_pf. Qed.
Print Assumptions c117_secret.

Example c117_secret_witness : option_map (fun x => match x with
    | Ok (s, _) => let o := JObj (aro_to_obj (s_request s)) in (jwf o && Nat.leb (jdepth o) 127,
        build_encrypted_response (fun _ => true) (fun h c k => Ok (jprint (JArr [JObj c; JObj k]))) (s_request s) [("pid", [VpString "x"])] None)
    | Err e => (false, Err e) end)
    (Some (rb_prepare simple_parse (secret_builder toy_client) 7%N toy_wm))
  = Some (true, Ok (Jwt "[{""vp_token"":{""pid"":[""x""]}},{""alg"":""ECDH-ES"",""crv"":""P-256"",""kid"":""k1"",""kty"":""EC""}]")).
Proof. exact c117_secret_ex. Qed.

(** C117: for x509_san_dns clients there is no such guarantee: whoever issues themselves a certificate with the verifier's
    DNS name is taken for the verifier, although nothing was ever signed with the verifier's key and the wallet gave the
    library trusted roots. *)
Theorem c117_san_refuted :
  exists (verifies : string -> string -> string -> bool) (roots : list string) (w : wallet) (r : auth_request) (der dns : string) (c : cert) (v : string),
    toy_cert der = Some c /\ certified c dns /\ p256_from_spki Some (c_spki c) "ES256" = Some v
    /\ (forall x sg, verifies v x sg = false)
    /\ (forall a jwt, w_hook w HX509San a jwt = Ok tt -> exists j, jwt = Some j
         /\ x509_san_validate toy_cert (p256_from_spki Some) verifies (w_metadata w) a j (Some roots) = Ok tt)
    /\ roots = [der]
    /\ exists a, snd (validate simple_parse any_header (fun _ => true) w r) = Ok a /\ text_at "client_id" (aro_to_obj a) ("x509_san_dns:" +:+ dns).
Proof. exact c117_san_refuted_pf. Qed.
Print Assumptions c117_san_refuted.
