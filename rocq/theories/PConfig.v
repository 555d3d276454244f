(** making clients and configuring verifiers (C83, C84) *)
From Coq Require Import Lia.
From Verif Require Import Base BaseFacts Utf8 Json JsonFacts JsonText JsonTextFacts Base64 Base64Facts Sha256 Url Object Formats Params Metadata Dcql Effects Jwt
  Request Session X509 SpecCert CertFacts Client Builder MapFacts Spec SpecObject SpecRequest SpecVerify SpecBuilder PfText PfBuilder PfSession PfClient PfX509 PfDid PfExServer
  SpecVerifierEx SpecConfig.
From Verif Require Import PfConfig.

(** C83: a DID client can be made exactly from a verification method with a fragment that the resolver resolves to
    the signer's own key. *)
Theorem c83_did_made
  : forall (key : Type) (key_eqb : key -> key -> bool) (resolver : string -> res key) (vm : string) (s : signer key),
    (exists c, did_client key_eqb resolver vm s = Ok c) <->
    (exists did fragment, vm = did +:+ "#" +:+ fragment)
    /\ exists k own, resolver vm = Ok k /\ sg_jwk s = Ok own /\ key_eqb k own = true.
Proof. exact c83_did_made_pf. Qed.
Print Assumptions c83_did_made.

Example c83_did_made_witness :
  is_ok (did_client String.eqb toy_resolver "did:web:v.example#1" (toy_signer "K")) = true
  /\ is_ok (did_client String.eqb toy_resolver "did:web:v.example#1" (toy_signer "X")) = false.
Proof. exact c83_did_made_ex. Qed.

(** C83: it then identifies itself with the DID of the verification method, and every JWT it makes is the request object
    signed under a header with the signer's algorithm and that verification method. *)
Theorem c83_did
  : forall (key : Type) (key_eqb : key -> key -> bool) (resolver : string -> res key) (vm : string) (s : signer key) (c : client),
    did_client key_eqb resolver vm s = Ok c ->
    exists did fragment,
      vm = did +:+ "#" +:+ fragment /\ has_char "#" fragment = false
      /\ cl_client_id c = "decentralized_identifier:" +:+ did /\ cl_prefix c = "decentralized_identifier"
      /\ (forall body jwt, cl_jwt c body = Ok jwt -> exists alg, sg_alg s = Ok alg
            /\ signed_jwt s jwt [("alg", JStr alg); ("kid", JStr vm); ("typ", JStr "oauth-authz-req+jwt")] (aro_to_json body))
      /\ (forall body, (exists jwt, cl_jwt c body = Ok jwt) <-> exists alg, sg_alg s = Ok alg).
Proof. exact c83_did_pf. Qed.
Print Assumptions c83_did.

Example c83_did_witness :
  match did_client String.eqb toy_resolver "did:web:v.example#1" (toy_signer "K") with
  | Ok c => cl_client_id c = "decentralized_identifier:did:web:v.example" | Err _ => False end
  /\ is_ok (did_client String.eqb toy_resolver "did:web:v.example" (toy_signer "K")) = false
  /\ is_ok (did_client String.eqb toy_resolver "did:web:v.example#1" (toy_signer "X")) = false.
Proof. exact c83_did_ex. Qed.

(** C83: an x509_san_dns client can be made exactly from a chain whose first certificate has a DNS name, an x509_hash
    client exactly from a chain whose first certificate can be encoded.  (An empty chain is a panic.) *)
Theorem c83_x509_made
  : forall (key : Type) (to_der : cert -> res string) (chain : list cert) (s : signer key),
    ((exists c, x509_san_client to_der chain s = Ok c) <-> exists leaf rest dns more, chain = leaf :: rest /\ dns_names leaf (dns :: more))
    /\ ((exists c, x509_hash_client to_der chain s = Ok c) <-> exists leaf rest der, chain = leaf :: rest /\ to_der leaf = Ok der).
Proof. exact c83_x509_made_pf. Qed.
Print Assumptions c83_x509_made.

Example c83_x509_made_witness :
  is_ok (x509_san_client toy_der toy_chain (toy_signer "K")) = true /\ is_ok (x509_hash_client toy_der toy_chain (toy_signer "K")) = true
  /\ is_ok (x509_san_client toy_der [named [] "K"] (toy_signer "K")) = false.
Proof. exact c83_x509_made_ex. Qed.

(** C83: the X.509 clients identify themselves with the first DNS name of the first certificate, or with the hash of
    its encoding; every JWT they make is the request object signed under a header with the signer's algorithm and the
    whole chain, first certificate first. *)
Theorem c83_x509
  : forall (key : Type) (to_der : cert -> res string) (leaf : cert) (rest : list cert) (s : signer key) (c : client),
    (x509_san_client to_der (leaf :: rest) s = Ok c ->
       cl_prefix c = "x509_san_dns" /\ exists dns more, dns_names leaf (dns :: more) /\ cl_client_id c = "x509_san_dns:" +:+ dns)
    /\ (x509_hash_client to_der (leaf :: rest) s = Ok c ->
       cl_prefix c = "x509_hash" /\ exists der, to_der leaf = Ok der /\ cl_client_id c = "x509_hash:" +:+ b64url_encode (sha256 der))
    /\ (x509_san_client to_der (leaf :: rest) s = Ok c \/ x509_hash_client to_der (leaf :: rest) s = Ok c ->
       (forall body jwt, cl_jwt c body = Ok jwt ->
          exists alg ders, sg_alg s = Ok alg /\ Forall2 (fun x der => to_der x = Ok der) (leaf :: rest) ders
            /\ signed_jwt s jwt [("alg", JStr alg); ("typ", JStr "oauth-authz-req+jwt");
                                 ("x5c", JArr (map (fun der => JStr (b64std_encode der)) ders))] (aro_to_json body))
       /\ (forall body, (exists jwt, cl_jwt c body = Ok jwt)
             <-> (exists alg, sg_alg s = Ok alg) /\ forall x, In x (leaf :: rest) -> exists der, to_der x = Ok der)).
Proof. exact c83_x509_pf. Qed.
Print Assumptions c83_x509.

Example c83_x509_witness :
  toy_chain <> []
  /\ match x509_san_client toy_der toy_chain (toy_signer "K") with
     | Ok c => cl_client_id c = "x509_san_dns:other.example" /\ is_ok (cl_jwt c toy_aro) = true | Err _ => False end
  /\ match x509_hash_client toy_der toy_chain (toy_signer "K") with Ok c => is_ok (cl_jwt c toy_aro) = true | Err _ => False end.
Proof. exact c83_x509_ex. Qed.

(** C84: a verifier can be built exactly when a client, a session store and a submission endpoint were given, in
    whatever order and however often. *)
Theorem c84_complete
  : forall (settings : list setting) (calls : list (verifier_builder -> verifier_builder)),
    Forall2 makes settings calls ->
    ((exists v, vb_build (fold_left (fun b call => call b) calls vb_new) = Ok v) <->
     (exists c, In (WithClient c) settings) /\ In WithStore settings /\ exists u, In (WithSubmission u) settings).
Proof. exact c84_complete_pf. Qed.
Print Assumptions c84_complete.

Example c84_complete_witness : Forall2 makes sample_settings sample_calls.
Proof. exact c84_complete_ex. Qed.

(** C84: the verifier has the client and the submission endpoint given last, passes requests as said last (by default in
    the URL), and has for every parameter name the default given last. *)
Theorem c84_settings
  : forall (settings : list setting) (calls : list (verifier_builder -> verifier_builder)) (v : verifier),
    Forall2 makes settings calls ->
    vb_build (fold_left (fun b call => call b) calls vb_new) = Ok v ->
    latest says_client settings (Some (v_client v))
    /\ latest says_submission settings (Some (v_submission v))
    /\ (forall x, latest says_conveyance settings x -> v_byref v = match x with Some y => y | None => None end)
    /\ (forall n, latest (says_default n) settings (obj_get n (v_defaults v))).
Proof. exact c84_settings_pf. Qed.
Print Assumptions c84_settings.

Example c84_settings_witness :
  match vb_build (fold_left (fun b call => call b) sample_calls vb_new) with
  | Ok v => obj_get "nonce" (v_defaults v) = Some (JStr "b") /\ v_byref v = None
  | Err _ => False
  end.
Proof. exact c84_settings_ex. Qed.

(** C84: every request that a verifier builds asks the query given last, and has for every parameter name the value
    given last for this request, or else the verifier's default; except for client_id, which is the client's, and for
    response_uri in the direct_post modes, which is the session's. *)
Theorem c84_request
  : forall (url_parse : string -> option url) (v : verifier) (choices : list choice)
      (calls : list (request_builder -> request_builder)) (id : uuid) (wm : wallet_metadata) (sess : session) (dest : url) (m m' : store),
    Forall2 chooses choices calls ->
    build_with_session_id url_parse (fold_left (fun b call => call b) calls (rb_new v)) id wm false m = (m', Ok dest) ->
    st_get id m' = Some sess ->
    latest says_query choices (Some (s_dcql sess))
    /\ text_at "client_id" (aro_to_obj (s_request sess)) (cl_client_id (v_client v))
    /\ obj_get "dcql_query" (aro_to_obj (s_request sess)) = Some (dcql_to_json (s_dcql sess))
    /\ forall n given, n <> "client_id" -> n <> "dcql_query" -> n <> "response_uri" -> latest (says_parameter n) choices given ->
         obj_get n (aro_to_obj (s_request sess)) = match given with Some x => Some x | None => obj_get n (v_defaults v) end.
Proof. exact c84_request_pf. Qed.
Print Assumptions c84_request.

Example c84_request_witness :
  Forall2 chooses sample_choices [rb_with_param p_state "x"; rb_with_dcql toy_query; rb_with_param p_nonce "c"]
  /\ match build_with_session_id simple_parse (fold_left (fun b call => call b) [rb_with_param p_state "x"; rb_with_dcql toy_query; rb_with_param p_nonce "c"]
            (rb_new (mk_verifier toy_client toy_params None (toy_url "https://v.example/s")))) 7%N toy_wm false [] with
     | (m', Ok dest) => match st_get 7%N m' with
                        | Some s => obj_get "nonce" (aro_to_obj (s_request s)) = Some (JStr "c")
                                    /\ obj_get "response_type" (aro_to_obj (s_request s)) = Some (JStr "vp_token")
                        | None => False end
     | (_, Err _) => False
     end.
Proof. exact c84_request_ex. Qed.

(** C84: a default or a parameter whose value cannot be converted to JSON is dropped without an error. *)
Theorem c84_dropped
  : forall (T : Type) (P : tparam T) (t : T) (e : string) (b : verifier_builder) (r : request_builder),
    tp_to P t = Err e -> vb_with_default P t b = b /\ rb_with_param P t r = r.
Proof. exact c84_dropped_pf. Qed.
Print Assumptions c84_dropped.

Example c84_dropped_witness : tp_to (mk_tparam "x" (fun _ => Ok tt) (fun _ => Err "no JSON")) tt = Err "no JSON".
Proof. exact c84_dropped_ex. Qed.
