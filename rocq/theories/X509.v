(** /repo/src/core/authorization_request/verification/{x509_hash,x509_san,verifier}.rs. *)
From Verif Require Import Base Json Base64 Sha256 Object Params Metadata Request Jwt.

(** [GeneralName] (crate x509-cert, external): DNS names, and names of the other kinds. *)
Inductive general_name := DnsName (name : string) | OtherName (kind : N) (content : string).
(** An extension: its identifier, whether it is critical, and what its value gives when decoded as a [SubjectAltName]
    (external; [None] when it does not decode). *)
Record extension := mk_ext { x_id : string; x_critical : bool; x_names : option (list general_name) }.
(** What the code reads from an X.509 certificate: its extensions and the public key info. *)
Record cert := mk_cert { c_extensions : list extension; c_spki : string }.

(** [TbsCertificate::filter::<SubjectAltName>] (external): the extensions with that identifier, each decoded. *)
Definition san_extensions (c : cert) : list (option (bool * list general_name)) :=
  map (fun e => match x_names e with Some l => Some (x_critical e, l) | None => None end)
      (filter (fun e => String.eqb (x_id e) "2.5.29.17") (c_extensions c)).
(** The DNS names both sides go through, x509_san.rs:77-93 and client.rs:92-109: extensions that do not decode are
    skipped, and so are names of other kinds. *)
Definition c_dns (c : cert) : list string :=
  flat_map (fun r => match r with
                     | Some (_, l) => flat_map (fun g => match g with DnsName d => [d] | OtherName _ _ => [] end) l
                     | None => []
                     end) (san_extensions c).

Section X509.
(** [Certificate::from_der]. *)
Variable cert_of_der : string -> option cert.
(** [trait Verifier], verifier.rs:6-14: [from_spki(spki, alg)] and [verify(payload, signature)]. *)
Context {vkey : Type}.
Variable from_spki : string -> string -> option vkey.
Variable vverify : vkey -> string -> string -> bool.

(** Header part common to both functions: alg, support check, first certificate.
    x509_hash.rs:49-88, x509_san.rs:34-73. *)
Definition leaf (wm : wallet_metadata) (jwt : string)
  : res (string * string * string * string * string * cert) :=
  let? (h64, b64, s64) := split_jws jwt in
  let? headers := jws_headers h64 in
  let? alg := header_str "alg" headers in
  let? supported := parsing_error (uo_get p_signing_algs (wm_obj wm)) in
  let? _ := of_bool (mem_str alg supported) "unsupported algorithm" in
  let? x5c := ok_or (obj_get "x5c" headers) "'x5c' missing" in
  let? chain := ok_or (as_arr x5c) "'x5c' not an array" in
  let? first := ok_or (nth_error chain 0) "'x5c' empty" in
  let? b64_x509 := ok_or (as_str first) "'x5c' not an array of strings" in
  let? der := ok_or (b64std_nopad_decode (trim_end "=" b64_x509)) "not base64" in
  let? c := ok_or (cert_of_der der) "not DER" in
  Ok (h64, b64, s64, alg, der, c).

(** Signature part, x509_hash.rs:112-128, x509_san.rs:107-123. *)
Definition check_signature (h64 b64 s64 alg : string) (c : cert) : res unit :=
  let? v := ok_or (from_spki (c_spki c) alg) "unable to parse SPKI" in
  let? sg := ok_or (b64url_decode s64) "signature not base64url" in
  of_bool (vverify v (h64 +:+ "." +:+ b64) sg) "signature could not be verified".

Definition strip_scheme (scheme client_id : string) : string :=
  match strip_prefix (scheme +:+ ":") client_id with Some d => d | None => client_id end.

(** [x509_hash::validate], x509_hash.rs:33-131.  The trusted roots are not used (108-110). *)
Definition x509_hash_validate {root : Type} (wm : wallet_metadata) (a : aro) (jwt : string)
    (trusted_roots : option (list root)) : res unit :=
  let? client_id := ok_or (ro_client_id a) "client_id is required" in
  let expected := strip_scheme X509_HASH client_id in
  let? (h64, b64, s64, alg, der, c) := leaf wm jwt in
  let? _ := of_bool (String.eqb (b64url_encode (sha256 der)) expected) "hash mismatch" in
  check_signature h64 b64 s64 alg c.

(** [x509_san::validate], x509_san.rs:21-126.  The trusted roots are not used (103-105). *)
Definition x509_san_validate {root : Type} (wm : wallet_metadata) (a : aro) (jwt : string)
    (trusted_roots : option (list root)) : res unit :=
  let? client_id := ok_or (ro_client_id a) "client_id is required" in
  let source := strip_scheme X509_SAN_DNS client_id in
  let? (h64, b64, s64, alg, der, c) := leaf wm jwt in
  let? _ := of_bool (mem_str source (c_dns c)) "no DNS SAN matches" in
  check_signature h64 b64 s64 alg c.
End X509.

(** [P256Verifier::from_spki], verifier.rs:19-25: only ["ES256"]; [spki_key] is the key decoding. *)
Definition p256_from_spki {vkey} (spki_key : string -> option vkey) (spki alg : string) : option vkey :=
  if String.eqb alg "ES256" then spki_key spki else None.
