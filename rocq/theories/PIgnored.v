(** What the other members of a request decide (C121) *)
From Coq Require Import Lia.
From Verif Require Import Base BaseFacts Utf8 Json JsonFacts JsonText JsonTextFacts Base64 Base64Facts Sha256 Serde Url Object Formats Params Metadata Dcql Effects Jwt
  Request Verify Did X509 Client Response Jwe ExMatcher ExWallet.
From Verif Require Import Spec SpecObject SpecRequest SpecVerify SpecCert SpecExample SpecOrder SpecIgnored ParamFacts PfRequest PfResolve PfVerify PfDid PfX509 PfExample LikeFacts.
From Verif Require Import PfIgnored.

(** C121: what a request object says outside the parameters that are read has no part in whether it is accepted, nor in any of its
    fields. *)
Theorem c121_request : forall up o o', same_parameters o o' -> agree same_request (aro_of_obj up o) (aro_of_obj up o').
Proof. exact c121_request_pf. Qed.
Print Assumptions c121_request.

Example c121_request_witness : same_parameters sample_request (outdated sample_request) /\ outdated sample_request <> sample_request
  /\ is_ok (aro_of_obj simple_parse sample_request) = true /\ is_ok (aro_of_obj simple_parse (outdated sample_request)) = true.
Proof. exact c121_request_ex. Qed.

(** C121: nor in the check against the wallet's metadata, of which only four members are read, and of the client's metadata only
    two. *)
Theorem c121_gate : forall w w' a a', same_wallet w w' -> same_request a a' ->
  validate_against_metadata w a = validate_against_metadata w' a'.
Proof. exact c121_gate_pf. Qed.
Print Assumptions c121_gate.

Example c121_gate_witness :
  let m := [("encrypted_response_enc_values_supported", jstrs ["A128GCM"])] in
  let w := mk_wm [] (mk_url "openid4vp" None "" true None None) [] in
  let o c := obj_insert "client_metadata" (JObj c) sample_request in
  same_client (JObj m) (JObj (("client_name", JStr "x") :: m)) /\ same_wallet w (mk_wm [("issuer", JStr "i")] (mk_url "openid4vp" None "" true None None) [])
  /\ rmap (validate_against_metadata w) (aro_of_obj simple_parse (o m)) = rmap (validate_against_metadata w) (aro_of_obj simple_parse (o (("client_name", JStr "x") :: m)))
  /\ is_ok (aro_of_obj simple_parse (o m)) = true.
Proof. exact c121_gate_ex. Qed.

(** C121: nor in the answer: the credential query, the state and the encrypted response. *)
Theorem c121_answer : forall a a', same_request a a' ->
  aro_dcql a = aro_dcql a' /\ aro_state a = aro_state a'
  /\ forall jwk_ok encrypt vp st, build_encrypted_response jwk_ok encrypt a vp st = build_encrypted_response jwk_ok encrypt a' vp st.
Proof. exact c121_answer_pf. Qed.
Print Assumptions c121_answer.

Example c121_answer_witness :
  let q := ex_object "x509_san_dns:v.example" in
  same_parameters q (outdated q) /\ option_map is_ok (match aro_of_obj simple_parse (outdated q) with Ok a => aro_dcql a | Err _ => None end) = Some true.
Proof. exact c121_answer_ex. Qed.

(** C121: a request object accepted because of its signer's DID stays accepted when its signer signs it again with anything else
    in the other members: whatever dates, audience or issuer it then names. *)
Theorem c121_did : forall (key : Type) (ssi_header : obj -> option bool) (sig_ok : key -> string -> string -> string -> bool)
    (resolver : string -> res key) (wm : wallet_metadata) (a a' : aro) (jwt jwt' : string) (trusted : option (list string)),
    same_request a a' -> reissued ssi_header jwt jwt' -> (forall k alg, signed_alike (sig_ok k alg) jwt jwt') ->
    verify_with_resolver ssi_header sig_ok resolver wm a jwt trusted = Ok tt ->
    verify_with_resolver ssi_header sig_ok resolver wm a' jwt' trusted = Ok tt.
Proof. exact c121_did_pf. Qed.
Print Assumptions c121_did.

Example c121_did_witness :
  let j o := make_jwt (did_header "ES256" "did:web:v.example#1") (body_of o) (toy_signer "K") in
  let verdict o := rmap (fun a => verify_with_resolver any_header toy_sig toy_resolver did_wallet a (j o) (Some ["did:web:v.example"])) (aro_of_obj simple_parse o) in
  reissued any_header (j did_request) (j (outdated did_request)) /\ (forall k alg, signed_alike (toy_sig k alg) (j did_request) (j (outdated did_request)))
  /\ verdict did_request = Ok (Ok tt) /\ verdict (outdated did_request) = Ok (Ok tt).
Proof. exact c121_did_ex. Qed.

(** C121: the same of a certificate. *)
Theorem c121_x509 : forall (cert_of_der : string -> option cert) (vkey : Type) (from_spki : string -> string -> option vkey)
    (verifies : vkey -> string -> string -> bool) (root : Type) (roots : option (list root)) (ssi_header : obj -> option bool)
    (wm : wallet_metadata) (a a' : aro) (jwt jwt' : string),
    same_request a a' -> reissued ssi_header jwt jwt' -> (forall v, signed_alike (verifies v) jwt jwt') ->
    (x509_hash_validate cert_of_der from_spki verifies wm a jwt roots = Ok tt ->
     x509_hash_validate cert_of_der from_spki verifies wm a' jwt' roots = Ok tt)
    /\ (x509_san_validate cert_of_der from_spki verifies wm a jwt roots = Ok tt ->
        x509_san_validate cert_of_der from_spki verifies wm a' jwt' roots = Ok tt).
Proof. exact c121_x509_pf. Qed.
Print Assumptions c121_x509.

Example c121_x509_witness :
  let j o := make_jwt (x5c_header "ES256" [b64std_encode "K|v.example"]) (body_of o) (toy_signer "K") in
  let o := x509_request "x509_san_dns:v.example" in
  let verdict o := rmap (fun a => x509_san_validate toy_cert (p256_from_spki Some) toy_verifies did_wallet a (j o) (None : option (list nat))) (aro_of_obj simple_parse o) in
  reissued any_header (j o) (j (outdated o)) /\ (forall k, signed_alike (toy_verifies k) (j o) (j (outdated o)))
  /\ verdict o = Ok (Ok tt) /\ verdict (outdated o) = Ok (Ok tt).
Proof. exact c121_x509_ex. Qed.

(** C121: a validated request stays valid when the verifier's answers, or the request itself, hold JWTs that differ in the other
    members only and that the wallet's own verification takes alike. The same network traffic is caused. *)
Theorem c121_validate : forall (url_parse : string -> option url) (ssi_header : obj -> option bool) (uri_ok : string -> bool)
    (R : string -> string -> Prop) (w w' : wallet) (r r' : auth_request) (a : aro),
    (forall j j', R j j' -> reissued ssi_header j j') -> same_wallet (w_metadata w) (w_metadata w') ->
    (forall q, same_reply R (w_http w q) (w_http w' q)) -> same_asked R r r' ->
    (forall h b b' j j', same_request b b' -> both (same_jwt R) j j' -> w_hook w h b j = Ok tt -> w_hook w' h b' j' = Ok tt) ->
    snd (validate url_parse ssi_header uri_ok w r) = Ok a ->
    exists a', snd (validate url_parse ssi_header uri_ok w' r') = Ok a' /\ same_request a a'
      /\ Forall2 (same_event R) (fst (validate url_parse ssi_header uri_ok w r)) (fst (validate url_parse ssi_header uri_ok w' r')).
Proof. exact c121_validate_pf. Qed.
Print Assumptions c121_validate.

Example c121_validate_witness :
  let R j j' := j = did_jwt did_request /\ j' = did_jwt (outdated did_request) in
  let w o := did_user (serve 200 (did_jwt o)) in
  let r := mk_ar None (ByReference sample_uri) in
  (forall j j', R j j' -> reissued any_header j j')
  /\ (forall q, same_reply R (w_http (w did_request) q) (w_http (w (outdated did_request)) q)) /\ same_asked R r r
  /\ (forall h b b' j j', same_request b b' -> both (same_jwt R) j j' -> did_hook h b j = Ok tt -> did_hook h b' j' = Ok tt)
  /\ is_ok (snd (validate simple_parse any_header (fun _ => true) (w did_request) r)) = true.
Proof. exact c121_validate_ex. Qed.

(** C121: the example wallet does the same, to the last byte sent, for request objects that differ in the other members. *)
Theorem c121_wallet : forall (url_parse : string -> option url) (ssi_header : obj -> option bool) (uri_ok : string -> bool)
    (jwk_ok : obj -> bool) (jwe_encrypt : obj -> obj -> obj -> res string) (lower sign : string -> string) (now : Z)
    (http http' : http_client) (endpoint : url) (store : list credential) (auto_consent : bool) (p p' : params),
    let asked q := from_url url_parse (build_request_url endpoint q) endpoint in
    let run h q := authorize url_parse ssi_header uri_ok jwk_ok jwe_encrypt lower sign now h endpoint store auto_consent q in
    agree (same_asked (reissued ssi_header)) (asked p) (asked p') -> pa_state p = pa_state p' ->
    (forall q, rq_method q = "GET" -> same_reply (reissued ssi_header) (http q) (http' q)) ->
    (forall q, rq_method q <> "GET" -> http q = http' q) ->
    snd (run http p) = snd (run http' p') /\ http_events (fst (run http p)) = http_events (fst (run http' p')).
Proof. exact c121_wallet_pf. Qed.
Print Assumptions c121_wallet.

Example c121_wallet_witness :
  let q := ex_object "x509_san_dns:v.example" in
  agree (same_asked (reissued any_header)) (from_url simple_parse (build_request_url ex_endpoint (ex_params None q)) ex_endpoint)
    (from_url simple_parse (build_request_url ex_endpoint (ex_params None (outdated q))) ex_endpoint)
  /\ ex_posted None q = ["https://v.example/resp"] /\ ex_posted None (outdated q) = ["https://v.example/resp"].
Proof. exact c121_wallet_ex. Qed.

(** C121: so it does not hold that a wallet refuses a request that is out of date or meant for somebody else: one with trusted
    signer, expired in 1970, for another audience, is validated by the library's own DID verification. *)
Theorem c121_expired_refuted : exists (jwt : string) (a : aro),
  snd (validate simple_parse any_header (fun _ => true) (did_user (serve 404 "")) (mk_ar None (ByValue jwt))) = Ok a
  /\ obj_get "exp" (ro_inner a) = Some (JInt 1) /\ text_at "aud" (ro_inner a) "https://other-wallet.example".
Proof. exact c121_expired_refuted_pf. Qed.
Print Assumptions c121_expired_refuted.
