(** DID verification (C23, C24) *)
From Coq Require Import Lia.
From Verif Require Import Base BaseFacts Utf8 Utf8Facts Json JsonFacts JsonText JsonTextFacts Serde MapFacts Base64 Base64Facts Url Object
  Formats Params Metadata Effects Jwt Request Verify Did X509 Client Spec SpecObject SpecRequest SpecVerify ParamFacts PfText PfRequest PfResolve PfVerify.
From Verif Require Import PfDid.

(** C23: verification with a resolver accepts exactly when the JWT's alg is one the wallet lists and either it
    contains "none", or: the kid is a DID, "#" and a fragment; the DID is the one the client identifier names;
    it is on the trust list, if there is one; and the JWT carries a valid signature, over its header and
    payload, by the key that the resolver gives for the kid. *)
Theorem c23_did :
  forall (key : Type) (ssi_header : obj -> option bool) (sig_ok : key -> string -> string -> string -> bool)
    (resolver : string -> res key) (wm : wallet_metadata) (a : aro) (jwt : string) (trusted : option (list string)),
    verify_with_resolver ssi_header sig_ok resolver wm a jwt trusted = Ok tt
    <-> exists h64 p64 s64 h alg,
          compact jwt h64 p64 s64 /\ header_text h64 h /\ text_at "alg" h alg /\ alg_supported wm alg
          /\ (contains "none" alg
              \/ ~ contains "none" alg
                 /\ exists kid did fragment client_id k enc payload body sg,
                    text_at "kid" h kid /\ kid = did +:+ "#" +:+ fragment /\ has_char "#" did = false
                    /\ ro_client_id a = Some client_id /\ names "decentralized_identifier" client_id did
                    /\ (forall l, trusted = Some l -> In did l)
                    /\ resolver kid = Ok k
                    /\ b64url_decode s64 = Some sg /\ sig_ok k alg (h64 +:+ "." +:+ p64) sg = true
                    /\ ssi_header h = Some enc /\ payload_text enc p64 payload /\ json_of_text payload = Some body).
Proof. exact c23_did_pf. Qed.
Print Assumptions c23_did.

Example c23_did_witness :
  did_verdict "K" (Some ["did:web:v.example"]) (did_header "ES256" "did:web:v.example#1") = Ok tt
  /\ did_verdict "X" None (did_header "ES256" "did:web:v.example#1") = Err "invalid-signature"
  /\ did_verdict "K" (Some ["did:web:other"]) (did_header "ES256" "did:web:v.example#1") = Err "not trusted"
  /\ did_verdict "K" None (did_header "ES256" "did:web:other#1") = Err "DIDs do not match"
  /\ did_verdict "K" None (did_header "ES384" "did:web:v.example#1") = Err "unsupported algorithm".
Proof. exact c23_did_ex. Qed.

(** C24: when the wallet lists an algorithm that contains "none", every JWT with that alg is accepted, for
    every client identifier, trust list and resolver, whatever stands in place of the signature. *)
Theorem c24_none_bypass :
  forall (key : Type) (ssi_header : obj -> option bool) (sig_ok : key -> string -> string -> string -> bool)
    (resolver : string -> res key) (wm : wallet_metadata) (a : aro) (trusted : option (list string))
    (alg p64 s64 : string),
    alg_supported wm alg -> contains "none" alg -> utf8_valid alg = true -> has_char "." p64 = false ->
    verify_with_resolver ssi_header sig_ok resolver wm a
      (b64url_encode (jprint (JObj [("alg", JStr alg)])) +:+ "." +:+ p64 +:+ "." +:+ s64) trusted = Ok tt.
Proof. exact c24_none_bypass_pf. Qed.
Print Assumptions c24_none_bypass.

Example c24_none_bypass_witness :
  alg_supported did_wallet "none" /\ contains "none" "none" /\ contains "none" "nonesuch"
  /\ exists a, aro_of_obj simple_parse did_request = Ok a
     /\ verify_with_resolver any_header toy_sig (fun _ => Err "unknown") did_wallet a "eyJhbGciOiJub25lIn0.e30." (Some []) = Ok tt.
Proof. exact c24_none_bypass_ex. Qed.

(** C24: the bypass needs the wallet to list such an algorithm: otherwise the JWT has a valid signature by the
    key that its kid names, which belongs to the client's DID. *)
Theorem c24_no_bypass :
  forall (key : Type) (ssi_header : obj -> option bool) (sig_ok : key -> string -> string -> string -> bool)
    (resolver : string -> res key) (wm : wallet_metadata) (a : aro) (jwt : string) (trusted : option (list string)),
    (forall alg, alg_supported wm alg -> ~ contains "none" alg) ->
    verify_with_resolver ssi_header sig_ok resolver wm a jwt trusted = Ok tt ->
    exists h64 p64 s64 h alg did fragment client_id k sg,
      compact jwt h64 p64 s64 /\ header_text h64 h /\ text_at "alg" h alg /\ alg_supported wm alg
      /\ text_at "kid" h (did +:+ "#" +:+ fragment) /\ has_char "#" did = false
      /\ ro_client_id a = Some client_id /\ names "decentralized_identifier" client_id did
      /\ (forall l, trusted = Some l -> In did l) /\ resolver (did +:+ "#" +:+ fragment) = Ok k
      /\ b64url_decode s64 = Some sg /\ sig_ok k alg (h64 +:+ "." +:+ p64) sg = true.
Proof. exact c24_no_bypass_pf. Qed.
Print Assumptions c24_no_bypass.

Example c24_no_bypass_witness :
  let wm := mk_wm [("request_object_signing_alg_values_supported", jstrs ["ES256"])] (mk_url "openid4vp" None "" true None None) [] in
  forall alg, alg_supported wm alg -> ~ contains "none" alg.
Proof. exact c24_no_bypass_ex. Qed.
