(** Clients and verifiers together (C27, C28, C70) *)
From Coq Require Import Lia.
From Verif Require Import Base BaseFacts Utf8 Utf8Facts Json JsonFacts JsonText JsonTextFacts Serde MapFacts Base64 Base64Facts Sha256 Url Object
  Formats Params Metadata Effects Jwt Request Verify Did X509 SpecCert CertFacts Client Spec SpecObject SpecRequest SpecVerify ParamFacts PfText PfRequest PfResolve PfVerify PfDid PfX509.
From Verif Require Import PfClient.

(** C27: a request object signed by the DID client is accepted by DID verification with the same resolver, for a
    wallet that supports the algorithm and trusts the DID, if signatures made with the signer's key verify. *)
Theorem c27_did :
  forall (key : Type) (ssi_header : obj -> option bool) (sig_ok : key -> string -> string -> string -> bool)
    (key_eqb : key -> key -> bool) (resolver : string -> res key) (s : signer key) (did fragment alg : string)
    (c : client) (body a : aro) (jwt : string) (wm : wallet_metadata) (trusted : option (list string)),
    (forall k k', key_eqb k k' = true -> k = k') ->
    (forall k m, sg_jwk s = Ok k -> sig_ok k alg m (sg_sign s m) = true) ->
    has_char "#" did = false -> has_char "#" fragment = false ->
    utf8_valid (did +:+ "#" +:+ fragment) = true -> utf8_valid alg = true ->
    did_client key_eqb resolver (did +:+ "#" +:+ fragment) s = Ok c ->
    sg_alg s = Ok alg -> alg_supported wm alg -> (forall l, trusted = Some l -> In did l) ->
    (forall h, did_header alg (did +:+ "#" +:+ fragment) = JObj h -> ssi_header h = Some true) ->
    jwf (aro_to_json body) = true -> jdepth (aro_to_json body) <= 127 ->
    cl_jwt c body = Ok jwt -> ro_client_id a = Some (cl_client_id c) ->
    verify_with_resolver ssi_header sig_ok resolver wm a jwt trusted = Ok tt.
Proof. exact c27_did_pf. Qed.
Print Assumptions c27_did.

Example c27_did_witness :
  roundtrip (did_client String.eqb toy_resolver ("did:web:v.example" +:+ "#" +:+ "1") (toy_signer "K"))
    (fun a jwt => verify_with_resolver any_header toy_sig toy_resolver did_wallet a jwt (Some ["did:web:v.example"])) = Ok tt.
Proof. exact c27_did_ex. Qed.

(** C27: the same for the x509_hash client; the certificate decodes to what was encoded and its key verifies
    what the signer signs. *)
Theorem c27_x509_hash :
  forall (key vkey root : Type) (cert_of_der : string -> option cert) (to_der : cert -> res string)
    (from_spki : string -> string -> option vkey) (verifies : vkey -> string -> string -> bool)
    (s : signer key) (leaf : cert) (rest : list cert) (alg : string) (v : vkey)
    (c : client) (body a : aro) (jwt : string) (wm : wallet_metadata) (roots : option (list root)),
    (forall x der, to_der x = Ok der -> cert_of_der der = Some x) ->
    from_spki (c_spki leaf) alg = Some v -> (forall m, verifies v m (sg_sign s m) = true) ->
    x509_hash_client to_der (leaf :: rest) s = Ok c ->
    sg_alg s = Ok alg -> utf8_valid alg = true -> alg_supported wm alg ->
    cl_jwt c body = Ok jwt -> ro_client_id a = Some (cl_client_id c) ->
    x509_hash_validate cert_of_der from_spki verifies wm a jwt roots = Ok tt.
Proof. exact c27_x509_hash_pf. Qed.
Print Assumptions c27_x509_hash.

Example c27_x509_hash_witness :
  roundtrip (x509_hash_client toy_der toy_chain (toy_signer "K"))
    (fun a jwt => x509_hash_validate toy_cert (p256_from_spki Some) toy_verifies did_wallet a jwt (None : option (list nat))) = Ok tt.
Proof. exact c27_x509_hash_ex. Qed.

(** C27: the same for the x509_san_dns client. *)
Theorem c27_x509_san :
  forall (key vkey root : Type) (cert_of_der : string -> option cert) (to_der : cert -> res string)
    (from_spki : string -> string -> option vkey) (verifies : vkey -> string -> string -> bool)
    (s : signer key) (leaf : cert) (rest : list cert) (alg : string) (v : vkey)
    (c : client) (body a : aro) (jwt : string) (wm : wallet_metadata) (roots : option (list root)),
    (forall x der, to_der x = Ok der -> cert_of_der der = Some x) ->
    from_spki (c_spki leaf) alg = Some v -> (forall m, verifies v m (sg_sign s m) = true) ->
    x509_san_client to_der (leaf :: rest) s = Ok c ->
    sg_alg s = Ok alg -> utf8_valid alg = true -> alg_supported wm alg ->
    cl_jwt c body = Ok jwt -> ro_client_id a = Some (cl_client_id c) ->
    x509_san_validate cert_of_der from_spki verifies wm a jwt roots = Ok tt.
Proof. exact c27_x509_san_pf. Qed.
Print Assumptions c27_x509_san.

Example c27_x509_san_witness :
  roundtrip (x509_san_client toy_der toy_chain (toy_signer "K"))
    (fun a jwt => x509_san_validate toy_cert (p256_from_spki Some) toy_verifies did_wallet a jwt (None : option (list nat))) = Ok tt.
Proof. exact c27_x509_san_ex. Qed.

(** C28: for a verification method with more than one "#", the DID client's requests are rejected by DID
    verification, whatever the wallet, resolver, signature scheme and trust list (unless the algorithm
    contains "none"). *)
Theorem c28_fragments :
  forall (key : Type) (ssi_header : obj -> option bool) (sig_ok : key -> string -> string -> string -> bool)
    (key_eqb : key -> key -> bool) (resolver resolver' : string -> res key) (s : signer key) (x y z alg : string)
    (c : client) (body a : aro) (jwt : string) (wm : wallet_metadata) (trusted : option (list string)),
    did_client key_eqb resolver (x +:+ "#" +:+ y +:+ "#" +:+ z) s = Ok c ->
    sg_alg s = Ok alg -> ~ contains "none" alg ->
    utf8_valid (x +:+ "#" +:+ y +:+ "#" +:+ z) = true -> utf8_valid alg = true ->
    cl_jwt c body = Ok jwt -> ro_client_id a = Some (cl_client_id c) ->
    exists e, verify_with_resolver ssi_header sig_ok resolver' wm a jwt trusted = Err e.
Proof. exact c28_fragments_pf. Qed.
Print Assumptions c28_fragments.

Example c28_fragments_witness :
  roundtrip (did_client String.eqb (fun _ => Ok "K") ("did:x" +:+ "#" +:+ "a" +:+ "#" +:+ "b") (toy_signer "K"))
    (fun a jwt => verify_with_resolver any_header toy_sig (fun _ => Ok "K") did_wallet a jwt None) = Err "DIDs do not match".
Proof. exact c28_fragments_ex. Qed.

(** C70: when a wallet delegates x509_hash clients to the library's verification, every validated request of such
    a client is exactly the payload of a JWT whose signature is valid under the key of the certificate that the
    client identifier designates. *)
Theorem c70_x509_hash :
  forall (url_parse : string -> option url) (ssi_header : obj -> option bool) (uri_ok : string -> bool)
    (cert_of_der : string -> option cert) (vkey root : Type) (from_spki : string -> string -> option vkey)
    (verifies : vkey -> string -> string -> bool) (roots : option (list root)) (w : wallet) (r : auth_request) (a : aro),
    (forall a jwt, w_hook w HX509Hash a jwt = Ok tt -> exists j, jwt = Some j
       /\ x509_hash_validate cert_of_der from_spki verifies (w_metadata w) a j roots = Ok tt) ->
    snd (validate url_parse ssi_header uri_ok w r) = Ok a -> ro_scheme a = Some "x509_hash" ->
    exists jwt h64 p64 s64 h enc payload alg der c v sg,
      snd (resolve_request url_parse ssi_header uri_ok (w_http w) r) = Ok (a, Some jwt) /\ compact jwt h64 p64 s64
      /\ header_text h64 h /\ ssi_header h = Some enc /\ payload_text enc p64 payload
      /\ json_of_text payload = Some (JObj (aro_to_obj a))
      /\ text_at "client_id" (aro_to_obj a) ("x509_hash:" +:+ b64url_encode (sha256 der))
      /\ first_certificate h der /\ cert_of_der der = Some c
      /\ text_at "alg" h alg /\ alg_supported (w_metadata w) alg
      /\ from_spki (c_spki c) alg = Some v /\ b64url_decode s64 = Some sg /\ verifies v (h64 +:+ "." +:+ p64) sg = true.
Proof. exact c70_x509_hash_pf. Qed.
Print Assumptions c70_x509_hash.

Example c70_x509_hash_witness :
  authentic (x509_hash_client toy_der toy_chain (toy_signer "K")) = Ok tt
  /\ authentic (x509_hash_client toy_der toy_chain (toy_signer "X")) = Err "signature could not be verified".
Proof. exact c70_x509_hash_ex. Qed.

(** C70: the same for x509_san_dns clients. *)
Theorem c70_x509_san :
  forall (url_parse : string -> option url) (ssi_header : obj -> option bool) (uri_ok : string -> bool)
    (cert_of_der : string -> option cert) (vkey root : Type) (from_spki : string -> string -> option vkey)
    (verifies : vkey -> string -> string -> bool) (roots : option (list root)) (w : wallet) (r : auth_request) (a : aro),
    (forall a jwt, w_hook w HX509San a jwt = Ok tt -> exists j, jwt = Some j
       /\ x509_san_validate cert_of_der from_spki verifies (w_metadata w) a j roots = Ok tt) ->
    snd (validate url_parse ssi_header uri_ok w r) = Ok a -> ro_scheme a = Some "x509_san_dns" ->
    exists jwt h64 p64 s64 h enc payload alg der c dns v sg,
      snd (resolve_request url_parse ssi_header uri_ok (w_http w) r) = Ok (a, Some jwt) /\ compact jwt h64 p64 s64
      /\ header_text h64 h /\ ssi_header h = Some enc /\ payload_text enc p64 payload
      /\ json_of_text payload = Some (JObj (aro_to_obj a))
      /\ text_at "client_id" (aro_to_obj a) ("x509_san_dns:" +:+ dns) /\ certified c dns
      /\ first_certificate h der /\ cert_of_der der = Some c
      /\ text_at "alg" h alg /\ alg_supported (w_metadata w) alg
      /\ from_spki (c_spki c) alg = Some v /\ b64url_decode s64 = Some sg /\ verifies v (h64 +:+ "." +:+ p64) sg = true.
Proof. exact c70_x509_san_pf. Qed.
Print Assumptions c70_x509_san.

Example c70_x509_san_witness :
  authentic (x509_san_client toy_der toy_chain (toy_signer "K")) = Ok tt
  /\ authentic (x509_san_client toy_der toy_chain (toy_signer "X")) = Err "signature could not be verified".
Proof. exact c70_x509_san_ex. Qed.

(** C70: the same for DID clients, for a wallet that lists no algorithm containing "none". *)
Theorem c70_did :
  forall (url_parse : string -> option url) (ssi_header : obj -> option bool) (uri_ok : string -> bool)
    (key : Type) (sig_ok : key -> string -> string -> string -> bool) (resolver : string -> res key)
    (trusted : option (list string)) (w : wallet) (r : auth_request) (a : aro),
    (forall a jwt, w_hook w HDid a jwt = Ok tt -> exists j, jwt = Some j
       /\ verify_with_resolver ssi_header sig_ok resolver (w_metadata w) a j trusted = Ok tt) ->
    (forall alg, alg_supported (w_metadata w) alg -> ~ contains "none" alg) ->
    snd (validate url_parse ssi_header uri_ok w r) = Ok a -> ro_scheme a = Some "decentralized_identifier" ->
    exists jwt h64 p64 s64 h enc payload alg did fragment k sg,
      snd (resolve_request url_parse ssi_header uri_ok (w_http w) r) = Ok (a, Some jwt) /\ compact jwt h64 p64 s64
      /\ header_text h64 h /\ ssi_header h = Some enc /\ payload_text enc p64 payload
      /\ json_of_text payload = Some (JObj (aro_to_obj a))
      /\ text_at "client_id" (aro_to_obj a) ("decentralized_identifier:" +:+ did)
      /\ text_at "kid" h (did +:+ "#" +:+ fragment)
      /\ (forall l, trusted = Some l -> In did l)
      /\ text_at "alg" h alg /\ alg_supported (w_metadata w) alg
      /\ resolver (did +:+ "#" +:+ fragment) = Ok k /\ b64url_decode s64 = Some sg /\ sig_ok k alg (h64 +:+ "." +:+ p64) sg = true.
Proof. exact c70_did_pf. Qed.
Print Assumptions c70_did.

Example c70_did_witness :
  authentic (did_client String.eqb toy_resolver "did:web:v.example#1" (toy_signer "K")) = Ok tt
  /\ authentic (did_client (fun _ _ => true) toy_resolver "did:web:v.example#1" (toy_signer "X")) = Err "invalid-signature".
Proof. exact c70_did_ex. Qed.
