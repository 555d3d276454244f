(** P-256 signers (C106) *)
From Coq Require Import Lia.
From Verif Require Import Base BaseFacts Utf8 Utf8Facts Json JsonFacts JsonText JsonTextFacts Serde MapFacts Base64 Base64Facts Sha256 Url Object
  Formats Params Metadata Effects Jwt Request Verify Did X509 SpecCert CertFacts Client Spec SpecObject SpecRequest SpecVerify ParamFacts PfText PfRequest PfResolve PfVerify PfDid PfX509
  PfClient Signer SpecSigner.
From Verif Require Import PfSigner.

(** C106: every P-256 key makes a signer.  It names the algorithm ES256 in both of its roles, gives no key id, its JWK is the
    public point and nothing else, and what it signs, in both roles, is the key's signature. *)
Theorem c106_signer :
  forall (secret : Type) (public : secret -> string * string) (ecdsa : secret -> string -> string) (k : secret),
    exists sg, p256_new public k = Ok sg
      /\ sg_alg (request_signer ecdsa sg) = Ok "ES256" /\ fetch_info sg = ("ES256", None)
      /\ sg_jwk (request_signer ecdsa sg) = Ok (bare (public k))
      /\ forall m, sg_sign (request_signer ecdsa sg) m = ecdsa k m /\ sign_bytes ecdsa sg m = Ok (ecdsa k m).
Proof. exact c106_signer_pf. Qed.
Print Assumptions c106_signer.

Example c106_signer_witness :
  p256_new toy_public "K" = Ok (mk_p256 "K" (mk_jwk None None None (Some "P-256") (Some "K") (Some "KK") None))
  /\ p256_text (toy_public "K") = "{""kty"":""EC"",""crv"":""P-256"",""x"":""Sw"",""y"":""S0s""}".
Proof. exact c106_signer_ex. Qed.

(** C106: a DID client can be made with the signer exactly when the verification method has a fragment and resolves to the
    JWK of the public point with nothing else in it. *)
Theorem c106_did_made :
  forall (secret : Type) (public : secret -> string * string) (ecdsa : secret -> string -> string) (k : secret) (sg : p256_signer)
    (resolver : string -> res jwk) (vm : string),
    p256_new public k = Ok sg ->
    ((exists c, did_client jwk_eqb resolver vm (request_signer ecdsa sg) = Ok c)
     <-> (exists did fragment, vm = did +:+ "#" +:+ fragment) /\ resolver vm = Ok (bare (public k))).
Proof. exact c106_did_made_pf. Qed.
Print Assumptions c106_did_made.

Example c106_did_made_witness :
  is_ok (did_client jwk_eqb (p256_resolver (bare (toy_public "K"))) "did:web:v.example#1" (request_signer toy_ecdsa (toy_p256 "K"))) = true
  /\ is_ok (did_client jwk_eqb (p256_resolver (bare (toy_public "L"))) "did:web:v.example#1" (request_signer toy_ecdsa (toy_p256 "K"))) = false.
Proof. exact c106_did_made_ex. Qed.

(** C106: "a signer and a DID document with the same public key fit together" fails: when the document's JWK has an
    algorithm, a key id or a use beside the key, no DID client can be made. *)
Theorem c106_annotated_refuted :
  exists (secret : Type) (public : secret -> string * string) (ecdsa : secret -> string -> string) (k : secret) (sg : p256_signer)
    (resolver : string -> res jwk) (vm : string) (j : jwk),
    p256_new public k = Ok sg /\ resolver vm = Ok j
    /\ (exists own, sg_jwk (request_signer ecdsa sg) = Ok own /\ same_key j own)
    /\ (exists did fragment, vm = did +:+ "#" +:+ fragment)
    /\ did_client jwk_eqb resolver vm (request_signer ecdsa sg) = Err "key mismatch".
Proof. exact c106_annotated_refuted_pf. Qed.
Print Assumptions c106_annotated_refuted.

Example c106_annotated_refuted_witness :
  forall j, In j [mk_jwk None (Some "1") None (Some "P-256") (Some "K") (Some "KK") None; mk_jwk None None (Some "sig") (Some "P-256") (Some "K") (Some "KK") None] ->
    did_client jwk_eqb (p256_resolver j) "did:web:v.example#1" (request_signer toy_ecdsa (toy_p256 "K")) = Err "key mismatch".
Proof. exact c106_annotated_refuted_ex. Qed.

(** C106: what a DID client with the signer signs is accepted by the wallet's DID verification with the same resolver, if the
    wallet supports ES256 and trusts the DID. *)
Theorem c106_did :
  forall (secret : Type) (public : secret -> string * string) (ecdsa : secret -> string -> string) (k : secret) (sg : p256_signer)
    (ssi_header : obj -> option bool) (sig_ok : jwk -> string -> string -> string -> bool) (resolver : string -> res jwk)
    (did fragment : string) (c : client) (body a : aro) (jwt : string) (wm : wallet_metadata) (trusted : option (list string)),
    (forall m, sig_ok (bare (public k)) "ES256" m (ecdsa k m) = true) ->
    p256_new public k = Ok sg -> did_client jwk_eqb resolver (did +:+ "#" +:+ fragment) (request_signer ecdsa sg) = Ok c ->
    has_char "#" did = false -> has_char "#" fragment = false -> utf8_valid (did +:+ "#" +:+ fragment) = true ->
    alg_supported wm "ES256" -> (forall l, trusted = Some l -> In did l) ->
    (forall h, did_header "ES256" (did +:+ "#" +:+ fragment) = JObj h -> ssi_header h = Some true) ->
    jwf (aro_to_json body) = true -> jdepth (aro_to_json body) <= 127 ->
    cl_jwt c body = Ok jwt -> ro_client_id a = Some (cl_client_id c) ->
    verify_with_resolver ssi_header sig_ok resolver wm a jwt trusted = Ok tt.
Proof. exact c106_did_pf. Qed.
Print Assumptions c106_did.

Example c106_did_witness :
  let resolver := p256_resolver (bare (toy_public "K")) in
  roundtrip (did_client jwk_eqb resolver "did:web:v.example#1" (request_signer toy_ecdsa (toy_p256 "K")))
    (fun a jwt => verify_with_resolver any_header p256_sig resolver did_wallet a jwt (Some ["did:web:v.example"])) = Ok tt.
Proof. exact c106_did_ex. Qed.

(** C106: what an X.509 client with the signer signs is accepted by the wallet's verification with the library's P-256 verifier,
    if the leaf certificate holds the signer's public point and the wallet supports ES256. *)
Theorem c106_x509 :
  forall (secret root : Type) (public : secret -> string * string) (ecdsa : secret -> string -> string)
    (verifies : string * string -> string -> string -> bool) (spki_key : string -> option (string * string))
    (cert_of_der : string -> option cert) (to_der : cert -> res string) (k : secret) (sg : p256_signer)
    (leaf : cert) (rest : list cert) (c : client) (body a : aro) (jwt : string) (wm : wallet_metadata) (roots : option (list root)),
    signs public ecdsa verifies -> (forall x der, to_der x = Ok der -> cert_of_der der = Some x) ->
    p256_new public k = Ok sg -> spki_key (c_spki leaf) = Some (public k) -> alg_supported wm "ES256" ->
    cl_jwt c body = Ok jwt -> ro_client_id a = Some (cl_client_id c) ->
    (x509_hash_client to_der (leaf :: rest) (request_signer ecdsa sg) = Ok c ->
     x509_hash_validate cert_of_der (p256_from_spki spki_key) verifies wm a jwt roots = Ok tt)
    /\ (x509_san_client to_der (leaf :: rest) (request_signer ecdsa sg) = Ok c ->
        x509_san_validate cert_of_der (p256_from_spki spki_key) verifies wm a jwt roots = Ok tt).
Proof. exact c106_x509_pf. Qed.
Print Assumptions c106_x509.

Example c106_x509_witness :
  signs toy_public toy_ecdsa point_verifies /\ toy_point "K" = Some (toy_public "K")
  /\ roundtrip (x509_hash_client toy_der toy_chain (request_signer toy_ecdsa (toy_p256 "K")))
       (fun a jwt => x509_hash_validate toy_cert (p256_from_spki toy_point) point_verifies did_wallet a jwt (None : option (list nat))) = Ok tt
  /\ roundtrip (x509_san_client toy_der toy_chain (request_signer toy_ecdsa (toy_p256 "K")))
       (fun a jwt => x509_san_validate toy_cert (p256_from_spki toy_point) point_verifies did_wallet a jwt (None : option (list nat))) = Ok tt.
Proof. exact c106_x509_ex. Qed.

(** C106: X.509 clients are made without looking at the certificate's key.  One whose leaf certificate holds another point than
    the signer's is made all the same, signs every request, and no wallet with the library's verification accepts any. *)
Theorem c106_mismatch :
  forall (secret root : Type) (public : secret -> string * string) (ecdsa : secret -> string -> string)
    (verifies : string * string -> string -> string -> bool) (spki_key : string -> option (string * string))
    (cert_of_der : string -> option cert) (to_der : cert -> res string) (k : secret) (sg : p256_signer)
    (leaf : cert) (p : string * string) (dns der : string) (more : list string),
    (forall x der, to_der x = Ok der -> cert_of_der der = Some x) ->
    p256_new public k = Ok sg -> spki_key (c_spki leaf) = Some p -> (forall m, verifies p m (ecdsa k m) = false) ->
    dns_names leaf (dns :: more) -> to_der leaf = Ok der ->
    exists ch cs,
      x509_hash_client to_der [leaf] (request_signer ecdsa sg) = Ok ch
      /\ x509_san_client to_der [leaf] (request_signer ecdsa sg) = Ok cs
      /\ forall body, exists jwt, cl_jwt ch body = Ok jwt /\ cl_jwt cs body = Ok jwt
           /\ forall (wm : wallet_metadata) (a : aro) (roots : option (list root)),
                x509_hash_validate cert_of_der (p256_from_spki spki_key) verifies wm a jwt roots <> Ok tt
                /\ x509_san_validate cert_of_der (p256_from_spki spki_key) verifies wm a jwt roots <> Ok tt.
Proof. exact c106_mismatch_pf. Qed.
Print Assumptions c106_mismatch.

Example c106_mismatch_witness :
  (forall m, point_verifies (toy_public "K") m (toy_ecdsa "L" m) = false)
  /\ c_dns (named ["other.example"; "v.example"] "K") = ["other.example"; "v.example"]
  /\ toy_point (c_spki (named ["other.example"; "v.example"] "K")) = Some (toy_public "K")
  /\ is_ok (x509_san_client toy_der toy_chain (request_signer toy_ecdsa (toy_p256 "L"))) = true
  /\ is_ok (roundtrip (x509_san_client toy_der toy_chain (request_signer toy_ecdsa (toy_p256 "L")))
       (fun a jwt => x509_san_validate toy_cert (p256_from_spki toy_point) point_verifies did_wallet a jwt (None : option (list nat)))) = false.
Proof. exact c106_mismatch_ex. Qed.
