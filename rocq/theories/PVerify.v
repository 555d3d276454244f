(** Verification of requests (C18-C22) *)
From Coq Require Import Lia.
From Verif Require Import Base BaseFacts Utf8 Json JsonFacts Serde MapFacts Url Object Formats Params
  Metadata Effects Jwt Request Verify Spec SpecObject SpecRequest ParamFacts PfRequest PfResolve.
From Verif Require Import PfVerify.

(** C18: no verification hook runs for a request object whose client identifier has a prefix that is not in
    the wallet's list (which is just pre-registered when absent). *)
Theorem c18_gate :
  forall (w : wallet) (a : aro) (jwt : option string) (prefix : string),
    ro_scheme a = Some prefix ->
    ~ (exists l, supported "client_id_prefixes_supported" ["pre-registered"] (w_metadata w) = Ok l /\ In prefix l) ->
    hook_events (fst (verify_request w a jwt)) = [] /\ exists e, snd (verify_request w a jwt) = Err e.
Proof. exact c18_gate_pf. Qed.
Print Assumptions c18_gate.

Example c18_gate_witness :
  exists a, aro_of_obj simple_parse sample_request = Ok a /\ ro_scheme a = Some "x509_san_dns"
  /\ snd (verify_request (lax_wallet ["x509_hash"] (serve 404 "")) a None) = Err "unsupported prefix".
Proof. exact c18_gate_ex. Qed.

(** C18: the same for whole validations: whatever hooks ran, the prefix of the request object they were given
    is in the wallet's list. *)
Theorem c18_validate :
  forall (url_parse : string -> option url) (ssi_header : obj -> option bool) (uri_ok : string -> bool)
    (w : wallet) (r : auth_request) (h : hook) (a : aro) (jwt : option string) (prefix : string),
    In (h, a, jwt) (hook_events (fst (validate url_parse ssi_header uri_ok w r))) ->
    ro_scheme a = Some prefix ->
    exists l, supported "client_id_prefixes_supported" ["pre-registered"] (w_metadata w) = Ok l /\ In prefix l.
Proof. exact c18_validate_pf. Qed.
Print Assumptions c18_validate.

Example c18_validate_witness :
  let w := lax_wallet ["x509_hash"; "x509_san_dns"] (serve 404 "") in
  length (hook_events (fst (validate simple_parse any_header (fun _ => true) w
     (mk_ar None (ByValue (jwt_of typ_ok sample_request)))))) = 1.
Proof. exact c18_validate_ex. Qed.

(** C18: an identifier without a prefix is not checked against the list: a wallet that lists only x509_hash
    still runs its pre-registered hook. *)
Theorem c18_preregistered_refuted :
  exists (w : wallet) (a : aro),
    supported "client_id_prefixes_supported" ["pre-registered"] (w_metadata w) = Ok ["x509_hash"]
    /\ ro_client_id a = Some "client" /\ ro_scheme a = None
    /\ hook_events (fst (verify_request w a None)) = [(HPreregistered, a, None)]
    /\ snd (verify_request w a None) = Ok tt.
Proof. exact c18_preregistered_refuted_pf. Qed.
Print Assumptions c18_preregistered_refuted.

(** C21: what the metadata check accepts, exactly. In an encrypted response mode the client metadata must
    contain a key marked for encryption with an alg; one such alg must be among the wallet's, when it lists
    any, and one of the client's enc values (A128GCM when it gives none) among the wallet's, when it lists
    any. The prefix of the client identifier must be among the wallet's and response_mode explicit. *)
Theorem c21_metadata :
  forall (wm : wallet_metadata) (a : aro),
    validate_against_metadata wm a = Ok tt <-> metadata_accepts wm a.
Proof. exact c21_metadata_pf. Qed.
Print Assumptions c21_metadata.

Example c21_metadata_witness :
  (exists a, aro_of_obj simple_parse (jarm_request [JObj [("alg", JStr "ECDH-ES"); ("use", JStr "enc")]]) = Ok a
     /\ validate_against_metadata enc_wallet a = Ok tt)
  /\ (exists a, aro_of_obj simple_parse (jarm_request [JObj [("alg", JStr "RSA-OAEP"); ("use", JStr "enc")]]) = Ok a
     /\ validate_against_metadata enc_wallet a = Err "not supported by wallet")
  /\ (exists a, aro_of_obj simple_parse (jarm_request [JObj [("alg", JStr "ECDH-ES")]]) = Ok a
     /\ validate_against_metadata enc_wallet a = Err "no encryption key").
Proof. exact c21_metadata_ex. Qed.

(** C19: verification accepts exactly when the metadata checks pass and the hook for the prefix accepts;
    that hook, with this request and JWT, is the only one that runs; it runs exactly when the checks pass. *)
Theorem c19_one_hook :
  forall (w : wallet) (a : aro) (jwt : option string) (h : hook),
    hook_of_prefix (ro_scheme a) h ->
    (snd (verify_request w a jwt) = Ok tt
     <-> metadata_accepts (w_metadata w) a /\ w_hook w h a jwt = Ok tt)
    /\ (metadata_accepts (w_metadata w) a ->
        hook_events (fst (verify_request w a jwt)) = [(h, a, jwt)])
    /\ (~ metadata_accepts (w_metadata w) a ->
        hook_events (fst (verify_request w a jwt)) = []).
Proof. exact c19_one_hook_pf. Qed.
Print Assumptions c19_one_hook.

Example c19_one_hook_witness :
  exists a, aro_of_obj simple_parse sample_request = Ok a /\ hook_of_prefix (ro_scheme a) HX509San
  /\ metadata_accepts (w_metadata (lax_wallet ["x509_san_dns"] (serve 404 ""))) a
  /\ hook_of_prefix (Some "urn") (HOther "urn").
Proof. exact c19_one_hook_ex. Qed.

(** C19: the reserved prefix origin is always rejected and runs no hook. *)
Theorem c19_origin :
  forall (w : wallet) (a : aro) (jwt : option string),
    ro_scheme a = Some "origin" ->
    hook_events (fst (verify_request w a jwt)) = [] /\ exists e, snd (verify_request w a jwt) = Err e.
Proof. exact c19_origin_pf. Qed.
Print Assumptions c19_origin.

Example c19_origin_witness :
  exists a, aro_of_obj simple_parse (obj_insert "client_id" (JStr "origin:https://x") sample_request) = Ok a
  /\ ro_scheme a = Some "origin".
Proof. exact c19_origin_ex. Qed.

(** C19: validation as a whole: a validated request was accepted by the one hook for its prefix, on the very
    object that is returned and the very JWT that was decoded. *)
Theorem c19_validate :
  forall (url_parse : string -> option url) (ssi_header : obj -> option bool) (uri_ok : string -> bool)
    (w : wallet) (r : auth_request) (a : aro),
    snd (validate url_parse ssi_header uri_ok w r) = Ok a ->
    exists jwt h, snd (resolve_request url_parse ssi_header uri_ok (w_http w) r) = Ok (a, jwt)
      /\ hook_of_prefix (ro_scheme a) h /\ w_hook w h a jwt = Ok tt
      /\ metadata_accepts (w_metadata w) a
      /\ hook_events (fst (validate url_parse ssi_header uri_ok w r)) = [(h, a, jwt)].
Proof. exact c19_validate_pf. Qed.
Print Assumptions c19_validate.

Example c19_validate_witness :
  is_ok (snd (validate simple_parse any_header (fun _ => true) (lax_wallet ["x509_san_dns"] (serve 404 ""))
    (mk_ar None (ByValue (jwt_of typ_ok sample_request))))) = true.
Proof. exact c19_validate_ex. Qed.

(** C20: with the default hooks no request is accepted. *)
Theorem c20_default :
  forall (url_parse : string -> option url) (ssi_header : obj -> option bool) (uri_ok : string -> bool)
    (wm : wallet_metadata) (http : http_client) (r : auth_request),
    exists e, snd (validate url_parse ssi_header uri_ok (mk_wallet wm http default_hook) r) = Err e.
Proof. exact c20_default_pf. Qed.
Print Assumptions c20_default.

Example c20_default_witness :
  snd (validate simple_parse any_header (fun _ => true)
    (mk_wallet (w_metadata (lax_wallet ["x509_san_dns"] (serve 404 ""))) (serve 404 "") default_hook)
    (mk_ar None (ByValue (jwt_of typ_ok sample_request)))) = Err "client verification not implemented".
Proof. exact c20_default_ex. Qed.

(** C22: validation rejects every request object without an explicit response_mode, although parsing takes
    its absence to mean direct_post. No hook runs. *)
Theorem c22_explicit_mode :
  forall (url_parse : string -> option url) (w : wallet) (o : obj) (a : aro) (jwt : option string),
    aro_of_obj url_parse o = Ok a -> absent "response_mode" o ->
    ro_mode a = DirectPost
    /\ (exists e, snd (verify_request w a jwt) = Err e)
    /\ hook_events (fst (verify_request w a jwt)) = [].
Proof. exact c22_explicit_mode_pf. Qed.
Print Assumptions c22_explicit_mode.

Example c22_explicit_mode_witness :
  exists a, aro_of_obj simple_parse (obj_remove "response_mode" sample_request) = Ok a
  /\ absent "response_mode" (obj_remove "response_mode" sample_request).
Proof. exact c22_explicit_mode_ex. Qed.

(** C22: hence no validated request lacks response_mode. *)
Theorem c22_validate :
  forall (url_parse : string -> option url) (ssi_header : obj -> option bool) (uri_ok : string -> bool)
    (w : wallet) (r : auth_request) (a : aro),
    snd (validate url_parse ssi_header uri_ok w r) = Ok a ->
    exists mode, text_at "response_mode" (aro_to_obj a) mode
      /\ In mode ["direct_post"; "direct_post.jwt"; "dc_api"; "dc_api.jwt"].
Proof. exact c22_validate_pf. Qed.
Print Assumptions c22_validate.

Example c22_validate_witness :
  is_ok (snd (validate simple_parse any_header (fun _ => true) (lax_wallet ["x509_san_dns"] (serve 404 ""))
    (mk_ar None (ByValue (jwt_of typ_ok sample_request))))) = true
  /\ snd (validate simple_parse any_header (fun _ => true) (lax_wallet ["x509_san_dns"] (serve 404 ""))
    (mk_ar None (ByValue (jwt_of typ_ok (obj_remove "response_mode" sample_request))))) = Err "missing parameter".
Proof. exact c22_validate_ex. Qed.
