(** /repo/src/core/authorization_request/verification/did.rs. *)
From Verif Require Import Base Json Object Params Metadata Request Jwt.

Section Did.
Context {key : Type}.
Variable ssi_header : obj -> option bool.
Variable sig_ok : key -> string -> string -> string -> bool.
(** [JWKResolver::fetch_public_jwk(Some(kid))]. *)
Variable resolver : string -> res key.

(** [verify_with_resolver], did.rs:14-89. *)
Definition verify_with_resolver (wm : wallet_metadata) (a : aro) (jwt : string)
    (trusted_dids : option (list string)) : res unit :=
  let? (h64, _, _) := split_jws jwt in
  let? headers := jws_headers h64 in
  let? alg := header_str "alg" headers in
  let? supported := parsing_error (uo_get p_signing_algs (wm_obj wm)) in
  let? _ := of_bool (mem_str alg supported) "unsupported algorithm" in
  if has_sub "none" alg then Ok tt
  else
    let? kid := header_str "kid" headers in
    let? client_id := ok_or (ro_client_id a) "client_id is required" in
    let? (did, _) := ok_or (split_once "#" kid) "expected a DID verification method" in
    let client_did := match strip_prefix (DECENTRALIZED_IDENTIFIER +:+ ":") client_id with
                      | Some d => d | None => client_id
                      end in
    let? _ := of_bool (String.eqb client_did did) "DIDs do not match" in
    let? _ := match trusted_dids with
              | None => Ok tt
              | Some l => of_bool (mem_str did l) "not trusted"
              end in
    let? jwk := resolver kid in
    let? _ := decode_verify ssi_header sig_ok jwt jwk in
    Ok tt.
End Did.
