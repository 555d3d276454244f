(** /repo/src/verifier/client.rs and request_signer.rs. *)
From Verif Require Import Base Json JsonText Base64 Sha256 Params Request X509.

(** [trait RequestSigner], request_signer.rs:11-30. *)
Record signer (key : Type) := mk_signer {
  sg_alg : res string;
  sg_jwk : res key;
  sg_sign : string -> string
}.
Arguments mk_signer {key}.
Arguments sg_alg {key}.
Arguments sg_jwk {key}.
Arguments sg_sign {key}.

(** [trait Client], client.rs:24-34. *)
Record client := mk_client {
  cl_client_id : string;
  cl_prefix : string;
  cl_jwt : aro -> res string
}.

(** [make_jwt], client.rs:250-262. *)
Definition make_jwt {key} (header : json) (body : aro) (s : signer key) : string :=
  let h64 := b64url_encode (jprint header) in
  let b64 := b64url_encode (jprint (aro_to_json body)) in
  h64 +:+ "." +:+ b64 +:+ "." +:+ b64url_encode (sg_sign s (h64 +:+ "." +:+ b64)).

Definition did_header (alg vm : string) : json :=
  JObj [("alg", JStr alg); ("kid", JStr vm); ("typ", JStr "oauth-authz-req+jwt")].
Definition x5c_header (alg : string) (x5c : list string) : json :=
  JObj [("alg", JStr alg); ("typ", JStr "oauth-authz-req+jwt"); ("x5c", JArr (map JStr x5c))].

(** [DIDClient::new], client.rs:46-74, and its [Client] impl, 157-182. [key_eqb] is JWK equality. *)
Definition did_client {key} (key_eqb : key -> key -> bool) (resolver : string -> res key)
    (vm : string) (s : signer key) : res client :=
  let? (id, _) := ok_or (rsplit_once "#" vm) "expected a DID verification method" in
  let? jwk := context (resolver vm) "unable to resolve key" in
  let? own := context (sg_jwk s) "signer did not have a JWK" in
  let? _ := of_bool (key_eqb jwk own) "key mismatch" in
  Ok (mk_client (DECENTRALIZED_IDENTIFIER +:+ ":" +:+ id) DECENTRALIZED_IDENTIFIER
        (fun body => let? alg := sg_alg s in Ok (make_jwt (did_header alg vm) body s))).

(** JWT of both X.509 clients, client.rs:194-214,227-247. [to_der] is [Certificate::to_der]. *)
Definition x509_jwt {key} (to_der : cert -> res string) (x5c : list cert) (s : signer key) (body : aro)
  : res string :=
  let? alg := sg_alg s in
  let? ders := mapM to_der x5c in
  Ok (make_jwt (x5c_header alg (map b64std_encode ders)) body s).

(** [X509SanDnsClient::new], client.rs:87-124: indexing an empty chain panics. *)
Definition x509_san_client {key} (to_der : cert -> res string) (x5c : list cert) (s : signer key)
  : res client :=
  match x5c with
  | [] => Err "panic"
  | c :: _ =>
      let? san := ok_or (nth_error (c_dns c) 0) "no DNS Subject Alternative Name" in
      Ok (mk_client (X509_SAN_DNS +:+ ":" +:+ san) X509_SAN_DNS (x509_jwt to_der x5c s))
  end.

(** [X509HashClient::new], client.rs:137-154. *)
Definition x509_hash_client {key} (to_der : cert -> res string) (x5c : list cert) (s : signer key)
  : res client :=
  match x5c with
  | [] => Err "panic"
  | c :: _ =>
      let? der := to_der c in
      Ok (mk_client (X509_HASH +:+ ":" +:+ b64url_encode (sha256 der)) X509_HASH (x509_jwt to_der x5c s))
  end.
