(** X.509 verification (C25, C26) *)
From Coq Require Import Lia.
From Verif Require Import Base BaseFacts Utf8 Utf8Facts Json JsonFacts JsonText JsonTextFacts Serde MapFacts Base64 Base64Facts Sha256 Url Object
  Formats Params Metadata Effects Jwt Request Verify Did X509 SpecCert CertFacts Client Spec SpecObject SpecRequest SpecVerify ParamFacts PfText PfRequest PfResolve PfVerify PfDid.
From Verif Require Import PfX509.

(** C25: x509_hash validation accepts exactly when the client identifier names the base64url SHA-256 hash of the
    first certificate in the JWT's x5c header, the alg is one the wallet lists, and the signature over header and
    payload is valid under that certificate's key. The trusted roots play no part. *)
Theorem c25_x509_hash :
  forall (cert_of_der : string -> option cert) (vkey : Type) (from_spki : string -> string -> option vkey)
    (verifies : vkey -> string -> string -> bool) (root : Type) (roots : option (list root))
    (wm : wallet_metadata) (a : aro) (jwt : string),
    x509_hash_validate cert_of_der from_spki verifies wm a jwt roots = Ok tt
    <-> exists h64 p64 s64 h alg der c client_id v sg,
          compact jwt h64 p64 s64 /\ header_text h64 h /\ text_at "alg" h alg /\ alg_supported wm alg
          /\ first_certificate h der /\ cert_of_der der = Some c
          /\ ro_client_id a = Some client_id /\ names "x509_hash" client_id (b64url_encode (sha256 der))
          /\ from_spki (c_spki c) alg = Some v
          /\ b64url_decode s64 = Some sg /\ verifies v (h64 +:+ "." +:+ p64) sg = true.
Proof. exact c25_x509_hash_pf. Qed.
Print Assumptions c25_x509_hash.

Example c25_x509_hash_witness :
  hash_verdict toy_hash_id "K" (x5c_header "ES256" [b64std_encode "K|v.example"]) = Ok tt
  /\ hash_verdict toy_hash_id "X" (x5c_header "ES256" [b64std_encode "K|v.example"]) = Err "signature could not be verified"
  /\ hash_verdict toy_hash_id "X" (x5c_header "ES256" [b64std_encode "X|v.example"; b64std_encode "K|v.example"]) = Err "hash mismatch"
  /\ hash_verdict toy_hash_id "K" (x5c_header "none" [b64std_encode "K|v.example"]) = Err "unable to parse SPKI".
Proof. exact c25_x509_hash_ex. Qed.

(** C26: x509_san_dns validation accepts exactly when the client identifier names one of the DNS names of the
    first certificate in the JWT's x5c header, the alg is one the wallet lists, and the signature over header and
    payload is valid under that certificate's key. The trusted roots play no part. *)
Theorem c26_x509_san :
  forall (cert_of_der : string -> option cert) (vkey : Type) (from_spki : string -> string -> option vkey)
    (verifies : vkey -> string -> string -> bool) (root : Type) (roots : option (list root))
    (wm : wallet_metadata) (a : aro) (jwt : string),
    x509_san_validate cert_of_der from_spki verifies wm a jwt roots = Ok tt
    <-> exists h64 p64 s64 h alg der c client_id dns v sg,
          compact jwt h64 p64 s64 /\ header_text h64 h /\ text_at "alg" h alg /\ alg_supported wm alg
          /\ first_certificate h der /\ cert_of_der der = Some c
          /\ ro_client_id a = Some client_id /\ names "x509_san_dns" client_id dns /\ certified c dns
          /\ from_spki (c_spki c) alg = Some v
          /\ b64url_decode s64 = Some sg /\ verifies v (h64 +:+ "." +:+ p64) sg = true.
Proof. exact c26_x509_san_pf. Qed.
Print Assumptions c26_x509_san.

Example c26_x509_san_witness :
  san_verdict "x509_san_dns:v.example" "K" (x5c_header "ES256" [b64std_encode "K|v.example"]) = Ok tt
  /\ san_verdict "x509_san_dns:v.example" "X" (x5c_header "ES256" [b64std_encode "K|v.example"]) = Err "signature could not be verified"
  /\ san_verdict "x509_san_dns:v.example" "X" (x5c_header "ES256" [b64std_encode "X|x.example"; b64std_encode "K|v.example"]) = Err "no DNS SAN matches"
  /\ san_verdict "x509_san_dns:V.example" "K" (x5c_header "ES256" [b64std_encode "K|v.example"]) = Err "no DNS SAN matches".
Proof. exact c26_x509_san_ex. Qed.

(** C25, C26: the verdict of both functions is the same for every list of trusted roots, including none. *)
Theorem c25_roots :
  forall (cert_of_der : string -> option cert) (vkey : Type) (from_spki : string -> string -> option vkey)
    (verifies : vkey -> string -> string -> bool) (root : Type) (roots roots' : option (list root))
    (wm : wallet_metadata) (a : aro) (jwt : string),
    x509_hash_validate cert_of_der from_spki verifies wm a jwt roots = x509_hash_validate cert_of_der from_spki verifies wm a jwt roots'
    /\ x509_san_validate cert_of_der from_spki verifies wm a jwt roots = x509_san_validate cert_of_der from_spki verifies wm a jwt roots'.
Proof. exact c25_roots_pf. Qed.
Print Assumptions c25_roots.

(** C25, C26: with the P-256 verifier only ES256 requests are accepted. *)
Theorem c25_p256 :
  forall (cert_of_der : string -> option cert) (vkey : Type) (spki_key : string -> option vkey)
    (verifies : vkey -> string -> string -> bool) (root : Type) (roots : option (list root))
    (wm : wallet_metadata) (a : aro) (jwt : string),
    x509_hash_validate cert_of_der (p256_from_spki spki_key) verifies wm a jwt roots = Ok tt
    \/ x509_san_validate cert_of_der (p256_from_spki spki_key) verifies wm a jwt roots = Ok tt ->
    exists h, protected_header jwt h /\ text_at "alg" h "ES256".
Proof. exact c25_p256_pf. Qed.
Print Assumptions c25_p256.

Example c25_p256_witness :
  hash_verdict toy_hash_id "K" (x5c_header "ES256" [b64std_encode "K|v.example"]) = Ok tt.
Proof. exact c25_p256_ex. Qed.
